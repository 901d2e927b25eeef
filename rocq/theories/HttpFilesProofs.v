From Verif Require Import PyStrFacts JsonFacts BytesFacts HttpFilesModel HttpProofs HttpHash.
From Coq Require Import Lia Permutation.

(** ** Texts *)
Lemma low_text s : Forall (fun c => (c < 55296)%N) s -> text s.
Proof.
  intros H. split; [eapply Forall_impl; [|exact H]; cbn; intros; lia|]. induction H as [|c r HC HR IHR]; [exact I|]. split; [|exact IHR].
  destruct r as [|d r]; [exact I|]. intros [HH _]. unfold is_high in HH. apply andb_true_iff in HH. destruct HH as [HH _]. apply N.leb_le in HH. lia.
Qed.
Lemma low_text_b s : forallb (fun c => N.ltb c 55296) s = true -> text s.
Proof. intros H. apply low_text. apply Forall_forall. rewrite forallb_forall in H. intros c I. apply N.ltb_lt. now apply H. Qed.
Ltac low_text := apply low_text_b; vm_compute; reflexivity.
Lemma scalar_text s : Forall scalar s -> text s.
Proof.
  unfold scalar. intros H. split; [eapply Forall_impl; [|exact H]; cbn; intros; lia|]. induction H as [|c r HC HR IHR]; [exact I|]. split; [|exact IHR].
  destruct r as [|d r]; [exact I|]. intros [HH _]. unfold is_high in HH. apply andb_true_iff in HH. rewrite !N.leb_le in HH. lia.
Qed.
Lemma b64_text b : Forall is_byte b -> text (b64encode b).
Proof. intros H. apply low_text. eapply Forall_impl; [|exact (b64_chars b H)]. cbn. intros; lia. Qed.

(** ** A JSON object with text keys *)
Lemma str_dict_plain_ok refloat l : NoDup (map fst l) -> Forall (fun p => text (fst p) /\ plain (snd p) /\ value_ok refloat (snd p)) l ->
  plain (str_dict l) /\ value_ok refloat (str_dict l).
Proof.
  intros ND F. split.
  - apply plain_str_dict; [|exact ND]. eapply Forall_impl; [|exact F]. cbn. tauto.
  - unfold str_dict. cbn [value_ok]. apply (fold_and (fun kv => key_ok refloat (fst kv) /\ value_ok refloat (snd kv))). apply Forall_map.
    eapply Forall_impl; [|exact F]. cbn. tauto.
Qed.
Lemma str_dict_inj d e : str_dict d = str_dict e -> d = e.
Proof.
  unfold str_dict. intros E. injection E as E. revert e E. induction d as [|[k v] d IH]; intros [|[j w] e] E; try discriminate; [reflexivity|].
  cbn [map fst snd] in E. injection E as -> -> E. f_equal. auto.
Qed.
Definition pairs (h : list (str * str)) : list (str * jv) := map (fun kv => (fst kv, JStr (snd kv))) h.
Lemma texts_pairs h : texts_value h = str_dict (pairs h).
Proof. unfold texts_value, str_dict, pairs. now rewrite map_map. Qed.
Definition dict_texts (h : list (str * str)) : Prop := NoDup (map fst h) /\ Forall (fun kv => text (fst kv) /\ text (snd kv)) h.
Lemma texts_value_ok refloat h : dict_texts h -> plain (texts_value h) /\ value_ok refloat (texts_value h).
Proof.
  intros [ND F]. rewrite texts_pairs. apply str_dict_plain_ok.
  - unfold pairs. rewrite map_map. exact ND.
  - unfold pairs. apply Forall_map. eapply Forall_impl; [|exact F]. cbn. tauto.
Qed.
Lemma texts_of_value h : texts_of (texts_value h) = Some h.
Proof.
  unfold texts_of, texts_value. rewrite map_map. induction h as [|[k v] h IH]; [reflexivity|]. cbn [map fst snd all_of]. now rewrite IH.
Qed.

(** ** The text that is hashed *)
Definition obj_ok (o : obj) : Prop :=
  text (o_url o) /\ text (o_method o) /\ (forall h, o_headers o = Some h -> dict_texts h) /\ (forall b, o_body o = Some b -> text b).

Lemma less_slt a : forall b, str_less a b = slt a b.
Proof. revert a. fix IH 1. intros [|x a] [|y b]; cbn [str_less slt]; try reflexivity; now rewrite IH. Qed.
Lemma insert_ins k v l : ~ In k (map fst l) -> insert_item (JKStr k, JStr v) (map (fun kv => (JKStr (fst kv), JStr (snd kv))) l) = map (fun kv => (JKStr (fst kv), JStr (snd kv))) (ins k v l).
Proof.
  induction l as [|[j w] l IH]; [reflexivity|]. cbn [map fst snd In insert_item ins key_less]. intros N. rewrite less_slt.
  destruct (str_eqb_spec j k) as [->|NE]; [tauto|]. destruct (slt k j); [reflexivity|]. cbn [map fst snd]. f_equal. apply IH. tauto.
Qed.
Lemma canon_names h k : In k (map fst (canon h)) -> In k (map fst h).
Proof.
  intros I. apply in_map_iff in I. destruct I as ([j w] & <- & I). cbn [fst]. revert I. induction h as [|[i x] h IH]; cbn [canon]; [easy|].
  intros I. apply ins_In in I. cbn [map fst In]. destruct I as [E|I]; [injection E as -> _; now left|right; now apply IH].
Qed.
Lemma sort_headers h : NoDup (map fst h) -> sort_keys (texts_value h) = texts_value (canon h).
Proof.
  intros ND. unfold texts_value. cbn [sort_keys]. f_equal. rewrite map_map. cbn [fst snd]. induction h as [|[k v] h IH]; [reflexivity|].
  cbn [map fst snd canon] in *. inversion ND as [|? ? N1 N2]; subst. unfold sort_items in *. cbn [fold_right]. rewrite IH by assumption.
  change (sort_keys (JStr v)) with (JStr v). apply insert_ins. intros I. apply N1. now apply canon_names.
Qed.
Definition flat (o : obj) : list (str * jv) :=
  match o_body o with Some b => [(lit "body", JStr b)] | None => [] end ++
  match o_headers o with Some h => [(lit "headers", texts_value (canon h))] | None => [] end ++
  [(lit "method", JStr (o_method o))] ++
  match o_order o with Some n => [(lit "order", JInt (Z.of_nat n))] | None => [] end ++
  [(lit "url", JStr (o_url o))].
Lemma sort_request o : obj_ok o -> sort_keys (JDict (request_entries o)) = str_dict (flat o).
Proof.
  intros (_ & _ & OH & _). unfold request_entries, flat, str_dict. destruct o as [u m [h|] [b|] [n|]]; cbn [o_url o_method o_headers o_body o_order option_map entry_of app] in *.
  1-4: destruct (OH h eq_refl) as [ND _]; pose proof (sort_headers h ND) as SH; cbn [sort_keys map fst snd]; rewrite SH; reflexivity.
  all: reflexivity.
Qed.
Lemma canon_texts h : dict_texts h -> dict_texts (canon h).
Proof.
  intros [ND F]. split.
  - assert (S := canon_sorted h). induction S as [|k v l S IH LT]; [constructor|]. cbn [map fst]. constructor; [|exact IH]. intros I.
    apply in_map_iff in I. destruct I as ([j w] & E & I). cbn [fst] in E. subst j. specialize (LT _ _ I). rewrite slt_irrefl in LT. discriminate.
  - rewrite Forall_forall in *. intros [k v] I. apply (F (k, v)). clear ND F. revert I. induction h as [|[i x] h IH]; cbn [canon]; [easy|].
    intros I. apply ins_In in I. destruct I as [E|I]; [left; now symmetry|right; now apply IH].
Qed.
Lemma flat_ok refloat o : obj_ok o -> plain (str_dict (flat o)) /\ value_ok refloat (str_dict (flat o)).
Proof.
  intros (OU & OM & OH & OB). apply str_dict_plain_ok.
  - unfold flat. destruct (o_body o), (o_headers o), (o_order o); cbn [app map fst]; repeat constructor; vm_compute; intuition discriminate.
  - unfold flat. repeat (apply Forall_app; split).
    + destruct (o_body o) as [b|] eqn:E; constructor; [|constructor]. cbn [fst snd]. split; [low_text|]. split; [exact I|]. now apply OB.
    + destruct (o_headers o) as [h|] eqn:E; constructor; [|constructor]. cbn [fst snd]. split; [low_text|]. apply texts_value_ok. apply canon_texts. now apply OH.
    + constructor; [|constructor]. cbn [fst snd]. split; [low_text|]. now split.
    + destruct (o_order o) as [n|]; constructor; [|constructor]. cbn [fst snd]. split; [low_text|]. now split.
    + constructor; [|constructor]. cbn [fst snd]. split; [low_text|]. now split.
Qed.
Lemma plain_json v : plain v -> as_json v = v.
Proof.
  unfold as_json. induction v as [| | | | |l IH|l IH|d IH|] using jv_rect'; cbn [plain back]; try reflexivity; try easy.
  - intros P. f_equal. apply fold_and in P. rewrite <- (map_id l) at 2. apply map_ext_in. rewrite Forall_forall in *. intros x I. apply IH; auto.
  - intros [P _]. apply (fold_and (fun kv => (exists s, fst kv = JKStr s) /\ plain (snd kv))) in P. unfold str_dict. f_equal. rewrite map_map. rewrite <- (map_id d) at 2. apply map_ext_in.
    rewrite Forall_forall in *. intros [k v] I. destruct (P _ I) as [[s ES] PV]. cbn [fst snd] in *. subst k. unfold key_back. cbn [key_str]. f_equal. exact (IH _ I PV).
Qed.
Lemma request_text_dumps o : obj_ok o -> dumps None 0 (str_dict (flat o)) = Some (request_text o).
Proof.
  intros OK. destruct (flat_ok (fun t => t) o OK) as [P _]. destruct (proj1 (dumps_writable _ None 0) (plain_writable _ P)) as [t E].
  unfold request_text. rewrite (sort_request o OK), E. reflexivity.
Qed.
Lemma flat_fields o :
  field (lit "url") (str_dict (flat o)) = Some (JStr (o_url o)) /\
  field (lit "method") (str_dict (flat o)) = Some (JStr (o_method o)) /\
  field (lit "body") (str_dict (flat o)) = option_map JStr (o_body o) /\
  field (lit "order") (str_dict (flat o)) = option_map (fun n => JInt (Z.of_nat n)) (o_order o) /\
  field (lit "headers") (str_dict (flat o)) = option_map (fun h => texts_value (canon h)) (o_headers o).
Proof. unfold flat. destruct (o_body o), (o_headers o), (o_order o); repeat split; reflexivity. Qed.
Lemma texts_value_inj h g : texts_value h = texts_value g -> h = g.
Proof. intros E. pose proof (texts_of_value h) as A. rewrite E, texts_of_value in A. now injection A. Qed.
Theorem request_text_same a b : obj_ok a -> obj_ok b -> (request_text a = request_text b <-> same a b).
Proof.
  intros OA OB. pose proof (request_text_dumps a OA) as DA. pose proof (request_text_dumps b OB) as DB.
  destruct (flat_ok (fun t => t) a OA) as [PA VA]. destruct (flat_ok (fun t => t) b OB) as [PB VB].
  pose proof (dumps_equal (fun t => t) _ _ None 0 VA VB (plain_writable _ PA)) as EQ. rewrite DA, DB, !plain_json in EQ by assumption.
  assert (E0 : request_text a = request_text b <-> str_dict (flat a) = str_dict (flat b)).
  { split; intros H; [apply EQ; now rewrite H|]. apply BytesFacts.some_inv. apply EQ. split; [now apply plain_writable|exact H]. }
  rewrite E0. clear E0 EQ DA DB. split.
  - intros E. destruct (flat_fields a) as (F1 & F2 & F3 & F4 & F5), (flat_fields b) as (G1 & G2 & G3 & G4 & G5). rewrite E in F1, F2, F3, F4, F5.
    rewrite G1 in F1. rewrite G2 in F2. rewrite G3 in F3. rewrite G4 in F4. rewrite G5 in F5. injection F1 as F1. injection F2 as F2. unfold same.
    split; [congruence|]. split; [congruence|]. split; [|split].
    + destruct (o_body a), (o_body b); try discriminate; [|reflexivity]. cbn [option_map] in F3. congruence.
    + destruct (o_order a), (o_order b); try discriminate; [|reflexivity]. cbn [option_map] in F4. injection F4 as F4. f_equal. lia.
    + destruct (o_headers a), (o_headers b); try discriminate; [|exact I]. cbn [option_map] in F5. apply canon_ext. symmetry. apply texts_value_inj. congruence.
  - intros (E1 & E2 & E3 & E4 & E5). unfold flat. rewrite E1, E2, E3, E4. destruct (o_headers a) as [h|], (o_headers b) as [g|]; try contradiction; [|reflexivity].
    apply canon_ext in E5. now rewrite E5.
Qed.

(** ** Requests in a file *)
Lemma request_fields o hash : let v := JDict (request_entries o ++ [(JKStr (lit "hash"), JStr hash)]) in
  field (lit "url") v = Some (JStr (o_url o)) /\ field (lit "method") v = Some (JStr (o_method o)) /\
  field (lit "headers") v = option_map texts_value (o_headers o) /\ field (lit "body") v = option_map JStr (o_body o) /\
  field (lit "order") v = option_map (fun n => JInt (Z.of_nat n)) (o_order o) /\ field (lit "hash") v = Some (JStr hash).
Proof. unfold request_entries. destruct o as [u m [h|] [b|] [n|]]; repeat split; reflexivity. Qed.
Lemma request_of_entries o hash : request_of (JDict (request_entries o ++ [(JKStr (lit "hash"), JStr hash)])) = Some (o, hash).
Proof.
  destruct (request_fields o hash) as (F1 & F2 & F3 & F4 & F5 & F6). unfold request_of. rewrite F1, F2, F3, F4, F5, F6. clear.
  assert (C : forall n, count_of (JInt (Z.of_nat n)) = Some n).
  { intros n. unfold count_of. rewrite (proj2 (Z.leb_le 0 (Z.of_nat n))) by lia. now rewrite Nat2Z.id. }
  destruct o as [u m [h|] [b|] [n|]]; cbn [o_url o_method o_headers o_body o_order option_map optional text_of]; rewrite ?texts_of_value, ?C; reflexivity.
Qed.
Lemma request_entries_pairs o hash : exists l, JDict (request_entries o ++ [(JKStr (lit "hash"), JStr hash)]) = str_dict l /\
  l = [(lit "url", JStr (o_url o)); (lit "method", JStr (o_method o))] ++
      match o_headers o with Some h => [(lit "headers", texts_value h)] | None => [] end ++
      match o_body o with Some b => [(lit "body", JStr b)] | None => [] end ++
      match o_order o with Some n => [(lit "order", JInt (Z.of_nat n))] | None => [] end ++ [(lit "hash", JStr hash)].
Proof. eexists. split; [|reflexivity]. unfold request_entries, str_dict. destruct o as [u m [h|] [b|] [n|]]; reflexivity. Qed.
Lemma request_value_ok refloat o hash : obj_ok o -> text hash ->
  plain (JDict (request_entries o ++ [(JKStr (lit "hash"), JStr hash)])) /\ value_ok refloat (JDict (request_entries o ++ [(JKStr (lit "hash"), JStr hash)])).
Proof.
  intros (OU & OM & OH & OB) TH. destruct (request_entries_pairs o hash) as (l & E & EL). rewrite E, EL. clear E EL l. apply str_dict_plain_ok.
  - destruct (o_body o), (o_headers o), (o_order o); cbn [app map fst]; repeat constructor; vm_compute; intuition discriminate.
  - repeat (apply Forall_app; split).
    + constructor; [|constructor; [|constructor]]; cbn [fst snd]; (split; [low_text|]); now split.
    + destruct (o_headers o) as [h|] eqn:E; constructor; [|constructor]. cbn [fst snd]. split; [low_text|]. apply texts_value_ok. now apply OH.
    + destruct (o_body o) as [b|] eqn:E; constructor; [|constructor]. cbn [fst snd]. split; [low_text|]. split; [exact I|]. now apply OB.
    + destruct (o_order o) as [n|]; constructor; [|constructor]. cbn [fst snd]. split; [low_text|]. now split.
    + constructor; [|constructor]. cbn [fst snd]. split; [low_text|]. now split.
Qed.

Section File.
  Variable refloat : str -> str.
  Variable R : Type.
  Variable response_json : R -> option jv.
  Variable response_of : jv -> option R.
  Variable response_ok : R -> Prop.
  Hypothesis json_ok : forall r v, response_ok r -> response_json r = Some v -> plain v /\ value_ok refloat v.
  Notation response_disk := (response_disk R response_json response_of).
  Notation snap_json := (snap_json R response_json).
  Notation entry_read := (entry_read R response_of).
  Definition snap_ok (s : key * R) : Prop := obj_ok (k_obj (fst s)) /\ text (k_hash (fst s)) /\ response_ok (snd s).

  Lemma hide_ok hide k : obj_ok (k_obj k) -> obj_ok (fst (to_json_object hide k)).
  Proof. intros (OU & OM & OH & OB). unfold to_json_object. destruct hide; cbn [fst]; [|now split]. split; [exact OU|]. split; [exact OM|]. split; discriminate. Qed.
  Lemma snap_json_ok hide s p : snap_ok s -> snap_json hide s = Some p -> text (fst p) /\ plain (snd p) /\ value_ok refloat (snd p).
  Proof.
    intros (OO & TH & RO) E. unfold HttpFilesModel.snap_json in E. pose proof (hide_ok hide (fst s) OO) as HO. destruct (to_json_object hide (fst s)) as [o hash] eqn:EO. cbn [fst] in HO.
    assert (EH : hash = k_hash (fst s)) by (unfold to_json_object in EO; now injection EO). subst hash.
    destruct (response_json (snd s)) as [r|] eqn:ER; [|discriminate]. apply some_inv in E. subst p. cbn [fst snd]. split; [exact TH|].
    destruct (json_ok _ _ RO ER) as [PR VR]. destruct (request_value_ok refloat o (k_hash (fst s)) HO TH) as [PQ VQ].
    apply (str_dict_plain_ok refloat [(lit "request", JDict (request_entries o ++ [(JKStr (lit "hash"), JStr (k_hash (fst s)))])); (lit "response", r)]).
    - repeat constructor; vm_compute; intuition discriminate.
    - constructor; [|constructor; [|constructor]]; (split; [cbn [fst]; low_text|]); now split.
  Qed.
  Lemma snap_read hide s p r : snap_json hide s = Some p -> response_disk (snd s) = Some r ->
    fst p = k_hash (fst s) /\ entry_read (JKStr (fst p), snd p) = Some (k_hash (fst s), (to_json_object hide (fst s), r)).
  Proof.
    unfold HttpFilesModel.snap_json, HttpFilesModel.response_disk. intros E D. destruct (to_json_object hide (fst s)) as [o hash] eqn:EO.
    assert (EH : hash = k_hash (fst s)) by (unfold to_json_object in EO; now injection EO). subst hash.
    destruct (response_json (snd s)) as [v|]; [|discriminate]. apply some_inv in E. subst p. cbn [fst snd]. split; [reflexivity|].
    unfold HttpFilesModel.entry_read. cbn [fst snd].
    match goal with |- context [field (lit "request") (JDict [(_, ?a); (_, ?b)])] =>
      change (field (lit "request") (JDict [(JKStr (lit "request"), a); (JKStr (lit "response"), b)])) with (Some a);
      change (field (lit "response") (JDict [(JKStr (lit "request"), a); (JKStr (lit "response"), b)])) with (Some b) end. cbn beta iota.
    rewrite request_of_entries, D. reflexivity.
  Qed.
  Definition reads (e : entry R) (p : str * jv) : Prop := fst e = fst p /\ entry_read (JKStr (fst p), snd p) = Some e.
  Lemma put_reads e p d d' : Forall2 reads d d' -> reads e p -> Forall2 reads (dict_put R e d) (pair_put (fst p) (snd p) d').
  Proof.
    destruct p as [i x]. cbn [fst snd]. intros F Q. induction F as [|f [j w] d d' H F IH]; cbn [dict_put pair_put].
    - constructor; [exact Q|constructor].
    - pose proof (proj1 H) as H1. pose proof (proj1 Q) as Q1. cbn [fst] in H1, Q1. rewrite H1, Q1.
      destruct (str_eqb_spec j i) as [->|NE]; constructor; assumption.
  Qed.
  Lemma stop_reads hide reqs : forall l d d' stored, all_of (map (snap_json hide) reqs) = Some l -> stop R response_disk hide reqs d = Some stored ->
    Forall2 reads d d' -> Forall2 reads stored (fold_left (fun d p => pair_put (fst p) (snd p) d) l d').
  Proof.
    induction reqs as [|[k r] reqs IH]; intros l d d' stored EA ES F; cbn [map all_of stop] in *.
    - injection EA as <-. injection ES as <-. exact F.
    - destruct (snap_json hide (k, r)) as [p|] eqn:EP; [|discriminate]. destruct (all_of (map (snap_json hide) reqs)) as [l'|]; [|discriminate].
      injection EA as <-. destruct (response_disk r) as [r'|] eqn:ED; [|discriminate]. cbn [fold_left]. apply (IH l' _ _ _ eq_refl ES).
      destruct (snap_read hide (k, r) p r' EP ED) as [H1 H2]. apply put_reads; [exact F|]. split; [exact (eq_sym H1)|exact H2].
  Qed.
  (** the file is written, and read back as what [stop] says *)
  Theorem file_back hide reqs stored : Forall snap_ok reqs -> stop R response_disk hide reqs [] = Some stored ->
    exists file, write_file R response_json hide reqs = Some file /\ read_file refloat R response_of file = Some stored.
  Proof.
    intros OK ES. unfold write_file.
    assert (AJ : exists l, all_of (map (snap_json hide) reqs) = Some l).
    { clear OK. revert ES. generalize (@nil (entry R)). induction reqs as [|[k r] reqs IH]; intros d ES; [eexists; reflexivity|]. cbn [stop map all_of] in *.
      destruct (response_disk r) as [r'|] eqn:ED; [|discriminate]. destruct (IH _ ES) as [l ->].
      unfold HttpFilesModel.snap_json. unfold HttpFilesModel.response_disk in ED. cbn [fst snd]. destruct (to_json_object hide k). destruct (response_json r); [eauto|discriminate]. }
    destruct AJ as [l EL]. rewrite EL. pose proof (stop_reads hide reqs l [] [] stored EL ES (Forall2_nil _)) as F. change (fold_left _ l []) with (dict_of l) in F.
    assert (OL : Forall (fun p => text (fst p) /\ plain (snd p) /\ value_ok refloat (snd p)) (dict_of l)).
    { apply Forall_forall. intros p I. apply dict_of_In in I. apply all_of_some in EL. clear - EL OK I json_ok response_of.
      induction EL as [|s q reqs l E EL IH]; [easy|]. inversion OK; subst. destruct I as [<-|I]; [|now apply IH]. eapply snap_json_ok; eassumption. }
    destruct (str_dict_plain_ok refloat (dict_of l) (dict_of_keys_nodup l) OL) as [P V].
    destruct (proj1 (dumps_writable _ (Some 4) 0) (plain_writable _ P)) as [file E]. exists file. split; [exact E|].
    unfold read_file. rewrite (printable_newlines file) by (eapply dumps_printable; eassumption). rewrite (loads_dumps refloat _ _ _ V E).
    rewrite (plain_back _ P). unfold str_dict. rewrite map_map. clear - F. induction F as [|e p stored d [_ H] F IH]; [reflexivity|]. cbn [map all_of fst snd].
    cbn [fst snd] in H. rewrite H, IH. reflexivity.
  Qed.
  Lemma write_none hide reqs s : In s reqs -> response_json (snd s) = None -> write_file R response_json hide reqs = None.
  Proof.
    intros I E. unfold write_file.
    assert (H : all_of (map (snap_json hide) reqs) = None).
    { induction reqs as [|t reqs IH]; [easy|]. cbn [map all_of]. destruct I as [->|I].
      - unfold HttpFilesModel.snap_json at 1. destruct (to_json_object hide (fst s)). now rewrite E.
      - destruct (snap_json hide t); [|reflexivity]. now rewrite IH. }
    now rewrite H.
  Qed.
End File.

(** ** What a run records satisfies what its requests, answers and earlier snapshots do *)
Section Recorded.
  Variable cc : CharClass.
  Variable sha : obj -> str.
  Variable R X : Type.
  Variable P : snap R -> Prop.
  Lemma send_recorded capture snaps reqs k real reqs' o i : Forall P snaps -> Forall P reqs ->
    (forall r, real = inl r -> P (mark_order cc sha R reqs k, r)) ->
    send cc sha R X capture snaps reqs k real = (reqs', o, i) -> Forall P reqs'.
  Proof.
    intros CS CR CK E. unfold send in E. destruct (find (matches R (mark_order cc sha R reqs k)) (rev snaps)) as [s|] eqn:F.
    - apply find_some in F. destruct F as [F _]. apply in_rev in F. injection E as <- _ _.
      match goal with |- context [existsb ?f reqs] => destruct (existsb f reqs) end; [exact CR|]. apply Forall_app. split; [exact CR|].
      constructor; [|constructor]. rewrite Forall_forall in CS. now apply CS.
    - destruct capture; [|injection E as <- _ _; exact CR]. destruct real as [r|x]; injection E as <- _ _; [|exact CR].
      apply Forall_app. split; [exact CR|]. constructor; [|constructor]. now apply CK.
  Qed.
  Lemma send_all_recorded capture snaps cs : forall reqs reqs' os is, Forall P snaps -> Forall P reqs ->
    (forall k r reqs, In (k, inl r) cs -> P (mark_order cc sha R reqs k, r)) ->
    send_all cc sha R X capture snaps reqs cs = (reqs', os, is) -> Forall P reqs'.
  Proof.
    induction cs as [|[k real] cs IH]; intros reqs reqs' os is CS CR CC E; cbn [send_all] in E.
    - injection E as <- _ _. exact CR.
    - destruct (send cc sha R X capture snaps reqs k real) as [[reqs1 o] i] eqn:E1.
      destruct (send_all cc sha R X capture snaps reqs1 cs) as [[reqs2 os2] is2] eqn:E2. injection E as <- _ _.
      eapply IH; [exact CS| |intros; apply CC; right; eassumption|exact E2]. eapply send_recorded; [exact CS|exact CR| |exact E1].
      intros r ->. apply CC. now left.
  Qed.
  (** what is returned comes from a snapshot or from the network *)
  Variable Q : R -> Prop.
  Lemma send_returned capture snaps reqs k real reqs' r i : Forall (fun s : snap R => Q (snd s)) snaps -> (forall r, real = inl r -> Q r) ->
    send cc sha R X capture snaps reqs k real = (reqs', Returned r, i) -> Q r.
  Proof.
    intros CS CK E. unfold send in E. destruct (find (matches R (mark_order cc sha R reqs k)) (rev snaps)) as [s|] eqn:F.
    - apply find_some in F. destruct F as [F _]. apply in_rev in F. injection E as _ <- _. rewrite Forall_forall in CS. now apply CS.
    - destruct capture; [|discriminate]. destruct real as [r0|x]; [|discriminate]. injection E as _ <- _. now apply CK.
  Qed.
  Lemma send_all_returned capture snaps cs : Forall (fun s : snap R => Q (snd s)) snaps -> (forall k r, In (k, inl r) cs -> Q r) ->
    forall reqs reqs' os is, send_all cc sha R X capture snaps reqs cs = (reqs', os, is) -> Forall (fun o => forall r, o = Returned r -> Q r) os.
  Proof.
    intros CS. induction cs as [|[k real] cs IH]; intros CC reqs reqs' os is E; cbn [send_all] in E.
    - injection E as _ <- _. constructor.
    - destruct (send cc sha R X capture snaps reqs k real) as [[reqs1 o] i] eqn:E1.
      destruct (send_all cc sha R X capture snaps reqs1 cs) as [[reqs2 os2] is2] eqn:E2. injection E as _ <- _. constructor.
      + intros r ->. eapply send_returned; [exact CS| |exact E1]. intros r0 ->. eapply CC. left. reflexivity.
      + eapply IH; [|exact E2]. intros. eapply CC. right. eassumption.
  Qed.
End Recorded.

(** ** What is recorded of a request *)
Lemma filter_texts p h : dict_texts h -> dict_texts (filter p h).
Proof.
  intros [ND F]. split.
  - induction h as [|[k v] h IH]; [constructor|]. cbn [map fst filter] in *. inversion ND as [|? ? N ND']; subst. inversion F; subst. specialize (IH ND' ltac:(assumption)).
    destruct (p (k, v)); [|exact IH]. cbn [map fst]. constructor; [|exact IH]. intros I. apply N. apply in_map_iff in I. destruct I as (x & E & I). apply filter_In in I.
    destruct I as [I _]. rewrite <- E. now apply in_map.
  - apply Forall_forall. intros x I. apply filter_In in I. rewrite Forall_forall in F. now apply F.
Qed.
Lemma strip_ok cc ign o : obj_ok o -> obj_ok (strip_headers cc ign o).
Proof.
  intros (OU & OM & OH & OB). unfold strip_headers. destruct ign as [| |l]; [now split| |].
  - split; [exact OU|]. split; [exact OM|]. split; [discriminate|exact OB].
  - split; [exact OU|]. split; [exact OM|]. split; [|exact OB]. cbn [o_headers]. intros h E. destruct (o_headers o) as [g|]; [|discriminate].
    apply some_inv in E. subst h. apply filter_texts. now apply OH.
Qed.
Lemma mark_ok cc sha R (reqs : list (snap R)) : (forall o, text (sha o)) -> forall k, obj_ok (k_obj k) /\ text (k_hash k) ->
  obj_ok (k_obj (mark_order cc sha R reqs k)) /\ text (k_hash (mark_order cc sha R reqs k)).
Proof.
  intros TS. unfold mark_order. induction reqs as [|s reqs IH]; intros k OK; [exact OK|]. cbn [fold_left]. apply IH. destruct (str_eqb _ _); [|exact OK].
  destruct OK as [OK _]. unfold increase_order, request_key. cbn [strip_headers k_obj k_hash]. split; [exact OK|apply TS].
Qed.

(** ** The responses *)
Definition rq_ok (r : rq_response) : Prop := dict_texts (rq_headers r) /\ forall e, rq_encoding r = Some e -> text e.
Definition hx_ok (r : hx_response) : Prop := dict_texts (hx_headers r) /\ Forall is_byte (hx_content r).

Lemma rq_json_ok refloat r v : rq_ok r -> rq_json r = Some v -> plain v /\ value_ok refloat v.
Proof.
  intros [OH OE] E. unfold rq_json in E. destruct (utf8_decode (rq_content r)) as [t|] eqn:ET; [|discriminate]. apply some_inv in E. subst v.
  apply (str_dict_plain_ok refloat [(lit "headers", texts_value (rq_headers r)); (lit "statusCode", JInt (rq_status r));
    (lit "encoding", match rq_encoding r with Some e => JStr e | None => JNone end); (lit "content", JStr t)]).
  - repeat constructor; vm_compute; intuition discriminate.
  - constructor; [|constructor; [|constructor; [|constructor; [|constructor]]]]; cbn [fst snd]; (split; [low_text|]).
    + now apply texts_value_ok.
    + now split.
    + destruct (rq_encoding r) as [e|] eqn:EE; [|now split]. split; [exact I|]. now apply OE.
    + split; [exact I|]. apply scalar_text. eapply decode_scalar. exact ET.
Qed.
Lemma hx_json_ok refloat r v : hx_ok r -> hx_json r = Some v -> plain v /\ value_ok refloat v.
Proof.
  intros [OH OB] E. unfold hx_json in E. apply some_inv in E. subst v.
  apply (str_dict_plain_ok refloat [(lit "headers", texts_value (filter (fun h => negb (str_eqb (fst h) (lit "content-encoding"))) (hx_headers r)));
    (lit "statusCode", JInt (hx_status r)); (lit "content", JStr (b64encode (hx_content r)))]).
  - repeat constructor; vm_compute; intuition discriminate.
  - constructor; [|constructor; [|constructor; [|constructor]]]; cbn [fst snd]; (split; [low_text|]).
    + apply texts_value_ok. now apply filter_texts.
    + now split.
    + split; [exact I|]. now apply b64_text.
Qed.
Lemma rq_disk r t : utf8_decode (rq_content r) = Some t -> response_disk rq_response rq_json rq_of r = Some r.
Proof.
  intros E. unfold response_disk, rq_json. rewrite E. unfold rq_of.
  match goal with |- context [field (lit "headers") ?v] => match v with JDict [(_, ?a); (_, ?b); (_, ?c); (_, ?d)] =>
    change (field (lit "headers") v) with (Some a); change (field (lit "statusCode") v) with (Some b);
    change (field (lit "encoding") v) with (Some c); change (field (lit "content") v) with (Some d) end end.
  cbn beta iota. rewrite texts_of_value, (encode_decode _ _ E). destruct r as [s h [e|] c]; reflexivity.
Qed.
Lemma rq_not r : utf8_decode (rq_content r) = None -> rq_json r = None.
Proof. intros E. unfold rq_json. now rewrite E. Qed.
Definition hx_plain (r : hx_response) : hx_response :=
  {| hx_status := hx_status r; hx_headers := filter (fun h => negb (str_eqb (fst h) (lit "content-encoding"))) (hx_headers r); hx_content := hx_content r |}.
Lemma hx_disk r : Forall is_byte (hx_content r) ->
  response_disk hx_response hx_json hx_of r = match utf8_decode (hx_content r) with Some _ => Some (hx_plain r) | None => None end.
Proof.
  intros B. unfold response_disk, hx_json. unfold hx_of.
  match goal with |- context [field (lit "headers") ?v] => match v with JDict [(_, ?a); (_, ?b); (_, ?c)] =>
    change (field (lit "headers") v) with (Some a); change (field (lit "statusCode") v) with (Some b); change (field (lit "content") v) with (Some c) end end.
  cbn beta iota. rewrite texts_of_value, (b64_decode_encode _ B). destruct (utf8_decode (hx_content r)) as [t|] eqn:E; [|reflexivity].
  rewrite (encode_decode _ _ E). reflexivity.
Qed.
