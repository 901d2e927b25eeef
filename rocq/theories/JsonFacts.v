(** What is written, and when. *)
From Verif Require Import PyStrFacts.
From Verif Require Export JsonProofs.
From Coq Require Import Lia.

(** ** Every writable value is written *)
Lemma all_of_map {A B} (f : A -> option B) l : (forall x, In x l -> exists y, f x = Some y) -> exists ys, all_of (map f l) = Some ys.
Proof.
  induction l as [|x l IH]; intros H; [exists []; reflexivity|]. cbn [map all_of].
  destruct (H x (or_introl eq_refl)) as [y ->]. destruct IH as [ys -> ]; [intros z I; apply H; now right|]. eauto.
Qed.
Lemma all_of_some {A B} (f : A -> option B) l ys : all_of (map f l) = Some ys -> Forall2 (fun x y => f x = Some y) l ys.
Proof.
  revert ys. induction l as [|x l IH]; intros ys E; cbn [map all_of] in E; [injection E as <-; constructor|].
  destruct (f x) as [y|] eqn:EF; [|discriminate]. destruct (all_of (map f l)) as [s|]; [|discriminate]. injection E as <-. constructor; auto.
Qed.
Lemma fold_and {A} (P : A -> Prop) l : fold_right (fun x Q => P x /\ Q) True l <-> Forall P l.
Proof. induction l as [|x l IH]; cbn; [split; constructor|]. rewrite IH. split; [intros []; now constructor|]. intros H. now inversion H. Qed.

Lemma dumps_writable v : forall ind level, writable v <-> exists t, dumps ind level v = Some t.
Proof.
  induction v as [|b|z|tx|s|l IH|l IH|d IH|] using jv_rect'; intros ind level; cbn [writable dumps];
    try (split; [intros _; eexists; reflexivity|intros _; exact I]).
  - rewrite fold_and. split.
    + intros H. destruct (all_of_map (dumps ind (S level)) l) as [ys -> ]; [|eexists; reflexivity].
      intros x I. rewrite Forall_forall in IH, H. now apply (proj1 (IH x I ind (S level))), H.
    + intros [t E]. destruct (all_of (map (dumps ind (S level)) l)) as [ys|] eqn:EA; [|discriminate]. apply all_of_some in EA.
      clear E. induction EA as [|x y l ys E EA IHE]; [constructor|]. inversion IH; subst. constructor; [|auto]. apply (H1 ind (S level)). eauto.
  - rewrite fold_and. split.
    + intros H. destruct (all_of_map (dumps ind (S level)) l) as [ys -> ]; [|eexists; reflexivity].
      intros x I. rewrite Forall_forall in IH, H. now apply (proj1 (IH x I ind (S level))), H.
    + intros [t E]. destruct (all_of (map (dumps ind (S level)) l)) as [ys|] eqn:EA; [|discriminate]. apply all_of_some in EA.
      clear E. induction EA as [|x y l ys E EA IHE]; [constructor|]. inversion IH; subst. constructor; [|auto]. apply (H1 ind (S level)). eauto.
  - rewrite (fold_and (fun kv => fst kv <> JKOther /\ writable (snd kv))).
    change (Forall (fun kv => fst kv <> JKOther /\ writable (snd kv)) d <->
            exists t, option_map (enclose ind level LBRACE RBRACE) (all_of (map (pair_text ind level) d)) = Some t). split.
    + intros H. destruct (all_of_map (pair_text ind level) d) as [ys -> ]; [|eexists; reflexivity].
      intros [k v] I. rewrite Forall_forall in IH, H. specialize (H _ I). cbn [fst snd] in H. destruct H as [NK W]. unfold pair_text. cbn [fst snd].
      apply (IH _ I ind (S level)) in W. destruct W as [t E]. cbn [snd] in E. rewrite E. destruct k; try congruence; eexists; reflexivity.
    + intros [t E]. destruct (all_of (map (pair_text ind level) d)) as [ys|] eqn:EA; [|discriminate]. apply all_of_some in EA.
      clear E. induction EA as [|[k v] y l ys E EA IHE]; [constructor|]. inversion IH as [|? ? IHV IHL]; subst. constructor; [|auto]. cbn [fst snd] in *. unfold pair_text in E. cbn [fst snd] in E.
      destruct (key_str k) eqn:EK; [|discriminate]. destruct (dumps ind (S level) v) eqn:ED; [|discriminate]. split; [intros ->; discriminate EK|].
      apply (IHV ind (S level)). eauto.
  - split; [easy|]. intros [t E]. discriminate.
Qed.

(** ** JSON data come back as they are *)
Lemma pair_put_fresh k v d : ~ In k (map fst d) -> pair_put k v d = d ++ [(k, v)].
Proof.
  induction d as [|[j w] d IH]; intros N; [reflexivity|]. cbn [pair_put map fst In] in *.
  destruct (str_eqb_spec j k) as [->|_]; [exfalso; apply N; now left|]. cbn [app]. now rewrite IH by tauto.
Qed.
Lemma dict_of_fresh l : forall d, NoDup (map fst d ++ map fst l) -> fold_left (fun d p => pair_put (fst p) (snd p) d) l d = d ++ l.
Proof.
  induction l as [|[k v] l IH]; intros d ND; [now rewrite app_nil_r|]. cbn [fold_left fst snd].
  rewrite pair_put_fresh.
  - rewrite IH; [now rewrite <- app_assoc|]. rewrite map_app, <- app_assoc. exact ND.
  - intros I. cbn [map fst] in ND. apply NoDup_remove_2 in ND. apply ND. apply in_or_app. now left.
Qed.
Lemma dict_of_nodup l : NoDup (map fst l) -> dict_of l = l.
Proof. intros H. unfold dict_of. rewrite dict_of_fresh by exact H. reflexivity. Qed.
Lemma pair_put_keys k v d j : In j (map fst (pair_put k v d)) <-> j = k \/ In j (map fst d).
Proof.
  induction d as [|[i w] d IH]; cbn [pair_put map fst In]; [intuition auto|]. destruct (str_eqb_spec i k) as [->|]; cbn [map fst In]; [intuition auto|]. rewrite IH. intuition auto.
Qed.
Lemma pair_put_nodup k v d : NoDup (map fst d) -> NoDup (map fst (pair_put k v d)).
Proof.
  induction d as [|[i w] d IH]; cbn [pair_put map fst]; intros H; [constructor; [easy|constructor]|]. inversion H; subst.
  destruct (str_eqb_spec i k) as [->|]; cbn [map fst]; constructor; auto. rewrite pair_put_keys. intuition congruence.
Qed.
Lemma dict_of_keys_nodup l : NoDup (map fst (dict_of l)).
Proof.
  unfold dict_of. assert (H : NoDup (map fst (@nil (str * jv)))) by constructor. revert H. generalize (@nil (str * jv)).
  induction l as [|p l IH]; intros d H; [exact H|]. cbn [fold_left]. apply IH. now apply pair_put_nodup.
Qed.
Lemma pair_put_In k v d p : In p (pair_put k v d) -> p = (k, v) \/ In p d.
Proof.
  induction d as [|[i w] d IH]; cbn [pair_put In]; [intuition auto|]. destruct (str_eqb_spec i k) as [->|]; cbn [In]; [intuition auto|]. intuition auto.
Qed.
Lemma dict_of_In l p : In p (dict_of l) -> In p l.
Proof.
  unfold dict_of. assert (H : forall d, In p (fold_left (fun d p => pair_put (fst p) (snd p) d) l d) -> In p d \/ In p l).
  { induction l as [|q l IH]; intros d; cbn [fold_left In]; [auto|]. intros I. destruct (IH _ I) as [J|J]; [|auto].
    apply pair_put_In in J. destruct J as [->|J]; [right; left; now destruct q|auto]. }
  intros I. destruct (H [] I); [easy|assumption].
Qed.

Lemma plain_str_dict e : Forall (fun p => plain (snd p)) e -> NoDup (map fst e) -> plain (str_dict e).
Proof.
  intros H ND. unfold str_dict. cbn [plain]. split.
  - apply (fold_and (fun kv => (exists s, fst kv = JKStr s) /\ plain (snd kv))). apply Forall_forall. intros p I. apply in_map_iff in I.
    destruct I as (q & <- & I). cbn [fst snd]. split; [eauto|]. rewrite Forall_forall in H. exact (H _ I).
  - rewrite map_map. cbn [fst]. clear H. induction e as [|[k v] e IHe]; cbn [map fst]; [constructor|]. inversion ND as [|? ? N1 N2]; subst. constructor; [|auto].
    intros I. apply in_map_iff in I. destruct I as ([j w] & E & I). cbn [fst] in E. injection E as ->. apply N1. apply in_map_iff. exists (k, w). now split.
Qed.
Lemma read_back_plain v : plain (read_back v) \/ ~ writable v.
Proof.
  induction v as [|b|z|tx|s|l IH|l IH|d IH|] using jv_rect'; try (now left).
  - change (read_back (JList l)) with (JList (map read_back l)). cbn [plain writable].
    induction IH as [|v l [H|H] IHF IHl]; cbn [map fold_right]; [auto| |]; destruct IHl; tauto.
  - change (read_back (JTuple l)) with (JList (map read_back l)). cbn [plain writable].
    induction IH as [|v l [H|H] IHF IHl]; cbn [map fold_right]; [auto| |]; destruct IHl; tauto.
  - assert (D : Forall (fun kv => plain (read_back (snd kv))) d \/ ~ fold_right (fun kv P => (fst kv <> JKOther /\ writable (snd kv)) /\ P) True d).
    { induction IH as [|[k v] d [H|H] IHF IHd]; cbn [fold_right fst snd] in *; [left; constructor| |tauto]. destruct IHd; [left; now constructor|tauto]. }
    destruct D as [D|D]; [left|now right]. change (read_back (JDict d)) with (str_dict (dict_of (map (fun kv => (key_back (fst kv), read_back (snd kv))) d))).
    apply plain_str_dict; [|apply dict_of_keys_nodup]. apply Forall_forall. intros p I. apply dict_of_In, in_map_iff in I. destruct I as ([k v] & <- & I). cbn [fst snd].
    rewrite Forall_forall in D. exact (D _ I).
  - right. easy.
Qed.
Lemma plain_back v : plain v -> read_back v = v.
Proof.
  induction v as [|b|z|tx|s|l IH|l IH|d IH|] using jv_rect'; cbn [plain]; try easy.
  - change (read_back (JList l)) with (JList (map read_back l)).
    rewrite fold_and. intros H. f_equal. rewrite <- (map_id l) at 2. apply map_ext_in. intros v I. rewrite Forall_forall in IH, H. auto.
  - rewrite (fold_and (fun kv => (exists s, fst kv = JKStr s) /\ plain (snd kv))). intros [H ND].
    change (read_back (JDict d)) with (str_dict (dict_of (map (fun kv => (key_back (fst kv), read_back (snd kv))) d))).
    assert (E : map (fun kv => (key_back (fst kv), read_back (snd kv))) d = map (fun kv => (key_back (fst kv), snd kv)) d).
    { apply map_ext_in. intros [k v] I. cbn [fst snd]. f_equal. rewrite Forall_forall in IH, H. apply (IH _ I). apply (H _ I). }
    rewrite E. rewrite dict_of_nodup.
    + unfold str_dict. f_equal. rewrite map_map. rewrite <- (map_id d) at 2. apply map_ext_in. intros [k v] I. cbn [fst snd]. rewrite Forall_forall in H. destruct (H _ I) as [[s K] _]. cbn [fst] in K. subst k. reflexivity.
    + rewrite map_map. cbn [fst]. clear IH E. induction d as [|[k v] d IHd]; [constructor|]. cbn [map fst] in *. inversion ND as [|? ? N1 N2]; inversion H as [|? ? [[s K] P] H2]; subst. cbn [fst snd] in K. subst k.
      constructor; [|auto]. intros I. apply N1. apply in_map_iff in I. destruct I as ([j w] & E & I). cbn [fst] in E.
      rewrite Forall_forall in H2. destruct (H2 _ I) as [[s2 K2] _]. cbn [fst] in K2. subst j. cbn in E. subst s2. apply in_map_iff. exists (JKStr s, w). now split.
Qed.
Lemma plain_writable v : plain v -> writable v.
Proof.
  induction v as [|b|z|tx|s|l IH|l IH|d IH|] using jv_rect'; cbn [plain writable]; try easy.
  - rewrite !fold_and. intros H. apply Forall_forall. intros x I. rewrite Forall_forall in IH, H. auto.
  - rewrite (fold_and (fun kv => (exists s, fst kv = JKStr s) /\ plain (snd kv))), (fold_and (fun kv => fst kv <> JKOther /\ writable (snd kv))). intros [H _].
    apply Forall_forall. intros x I. rewrite Forall_forall in IH, H. destruct (H _ I) as [[s K] P]. split; [rewrite K; discriminate|]. now apply (IH _ I).
Qed.

(** ** The text is printable ASCII and new lines *)
Definition printable (c : char) : Prop := c = NL \/ (32 <= c <= 126)%N.
Lemma hex_printable n : printable (hex_digit (n mod 16)).
Proof.
  right. assert (n mod 16 < 16)%N by (apply N.mod_lt; discriminate). unfold hex_digit. destruct (N.ltb_spec (n mod 16) 10); lia.
Qed.
Lemma u_escape_printable n : Forall printable (u_escape n).
Proof. unfold u_escape, hex4. repeat (constructor; [first [apply hex_printable | right; split; discriminate]|]). constructor. Qed.
Lemma esc_printable c : Forall printable (esc_char c).
Proof.
  unfold esc_char. repeat match goal with |- context [if (?a =? ?b)%N then _ else _] => destruct (N.eqb_spec a b) end;
    try (repeat (constructor; [right; split; discriminate|]); constructor).
  destruct (N.leb_spec 32 c); [destruct (N.leb_spec c 126)|]; cbn [andb]; [constructor; [right; lia|constructor]| |];
    (destruct (c <? 65536)%N; [apply u_escape_printable|apply Forall_app; split; apply u_escape_printable]).
Qed.
Lemma json_str_printable s : Forall printable (json_str s).
Proof.
  unfold json_str. constructor; [right; split; discriminate|]. apply Forall_app. split; [|constructor; [right; split; discriminate|constructor]].
  induction s as [|c s IH]; [constructor|]. cbn [flat_map]. apply Forall_app. split; [apply esc_printable|exact IH].
Qed.
Lemma digits_printable s : Forall (fun c => is_digit c = true) s -> Forall printable s.
Proof. intros H. eapply Forall_impl; [|exact H]. cbn. intros c D. apply digit_not in D. right. lia. Qed.
Lemma spaces_printable n : Forall printable (repeat SP n).
Proof. induction n; constructor; [right; split; discriminate|assumption]. Qed.
Lemma new_line_printable ind l : Forall printable (new_line ind l).
Proof. destruct ind; [|constructor]. cbn [new_line]. constructor; [now left|apply spaces_printable]. Qed.
Lemma sep_printable ind l : Forall printable (item_sep ind l).
Proof.
  destruct ind; cbn [item_sep]; (constructor; [right; split; discriminate|]); (constructor; [first [now left | right; split; discriminate]|]); [apply spaces_printable|constructor].
Qed.
Lemma join_printable sep items : Forall printable sep -> Forall (Forall printable) items -> Forall printable (join_with sep items).
Proof.
  intros S H. induction H as [|i items HI H IH]; [constructor|]. destruct items as [|j items]; [exact HI|].
  change (join_with sep (i :: j :: items)) with (i ++ sep ++ join_with sep (j :: items)). apply Forall_app. split; [exact HI|]. apply Forall_app. now split.
Qed.
Lemma enclose_printable ind level a b items : printable a -> printable b -> Forall (Forall printable) items -> Forall printable (enclose ind level a b items).
Proof.
  intros A B H. unfold enclose. destruct items as [|i items]; [constructor; [exact A|constructor; [exact B|constructor]]|]. constructor; [exact A|].
  apply Forall_app. split; [apply new_line_printable|]. apply Forall_app. split; [apply join_printable; [apply sep_printable|exact H]|].
  apply Forall_app. split; [apply new_line_printable|constructor; [exact B|constructor]].
Qed.
Lemma float_printable refloat t : float_repr refloat t -> Forall printable (json_float t).
Proof.
  intros OK. destruct (json_float_cases refloat t OK) as [[_ -> ]|[[_ -> ]|[[_ -> ]|(N1 & N2 & N3 & -> )]]];
    try (repeat (constructor; [right; split; discriminate|]); constructor).
  destruct OK as [H|[H|[H|(RT & m & i & f & e & ET & HM & [_ DI] & HI & HF & HE & FE)]]]; try contradiction. rewrite ET.
  apply Forall_app. split; [destruct HM as [-> | -> ]; repeat (constructor; [right; split; discriminate|]); constructor|].
  apply Forall_app. split; [now apply digits_printable|]. apply Forall_app. split.
  - destruct HF as [-> |(d & -> & [_ DD])]; [constructor|]. constructor; [right; split; discriminate|now apply digits_printable].
  - destruct HE as [-> |(c & g & d & -> & HC & HG & [_ DD])]; [constructor|]. constructor; [destruct HC as [-> | -> ]; right; split; discriminate|].
    apply Forall_app. split; [|now apply digits_printable]. destruct HG as [-> |[-> | -> ]]; repeat (constructor; [right; split; discriminate|]); constructor.
Qed.
Lemma dumps_printable refloat v : value_ok refloat v -> forall ind level t, dumps ind level v = Some t -> Forall printable t.
Proof.
  induction v as [|b|z|tx|s|l IH|l IH|d IH|] using jv_rect'; intros OK ind level t E; cbn [dumps] in E.
  - injection E as <-. repeat (constructor; [right; split; discriminate|]); constructor.
  - injection E as <-. destruct b; repeat (constructor; [right; split; discriminate|]); constructor.
  - injection E as <-. unfold show_Z. destruct z; try (apply digits_printable, show_N_digits). constructor; [right; split; discriminate|apply digits_printable, show_N_digits].
  - injection E as <-. now apply (float_printable refloat).
  - injection E as <-. apply json_str_printable.
  - destruct (all_of (map (dumps ind (S level)) l)) as [items|] eqn:EA; [|discriminate]. injection E as <-. apply all_of_some in EA.
    apply enclose_printable; [right; split; discriminate|right; split; discriminate|]. cbn [value_ok] in OK. apply fold_and in OK.
    induction EA as [|x y l ys E EA IHE]; [constructor|]. inversion IH; inversion OK; subst. constructor; [eauto|auto].
  - destruct (all_of (map (dumps ind (S level)) l)) as [items|] eqn:EA; [|discriminate]. injection E as <-. apply all_of_some in EA.
    apply enclose_printable; [right; split; discriminate|right; split; discriminate|]. cbn [value_ok] in OK. apply fold_and in OK.
    induction EA as [|x y l ys E EA IHE]; [constructor|]. inversion IH; inversion OK; subst. constructor; [eauto|auto].
  - change (option_map (enclose ind level LBRACE RBRACE) (all_of (map (pair_text ind level) d)) = Some t) in E.
    destruct (all_of (map (pair_text ind level) d)) as [items|] eqn:EA; [|discriminate]. injection E as <-. apply all_of_some in EA.
    apply enclose_printable; [right; split; discriminate|right; split; discriminate|]. cbn [value_ok] in OK.
    apply (fold_and (fun kv => key_ok refloat (fst kv) /\ value_ok refloat (snd kv))) in OK.
    induction EA as [|[k x] y l ys E EA IHE]; [constructor|]. inversion IH as [|? ? IHV IHL]; inversion OK as [|? ? OKV OKL]; subst. constructor; [|auto].
    unfold pair_text in E. cbn [fst snd] in *. destruct (key_str k) as [ks|]; [|discriminate]. destruct (dumps ind (S level) x) as [xt|] eqn:EX; [|discriminate].
    assert (EY : json_str ks ++ [COLON; SP] ++ xt = y) by (now injection E). rewrite <- EY.
    apply Forall_app. split; [apply json_str_printable|]. constructor; [right; split; discriminate|]. constructor; [right; split; discriminate|]. apply (IHV (proj2 OKV) _ _ _ EX).
  - discriminate.
Qed.
Lemma printable_newlines t : Forall printable t -> univ_newlines t = t.
Proof.
  induction 1 as [|c t P H IH]; [reflexivity|]. cbn [univ_newlines]. destruct (N.eqb_spec c CR) as [->|]; [|now rewrite IH].
  destruct P as [P|P]; [discriminate|]. exfalso. revert P. clear. cbv. intuition congruence.
Qed.

(** ** The text shows exactly [as_json] *)
Lemma dumps_as_json v : writable v -> forall ind level, dumps ind level (as_json v) = dumps ind level v.
Proof.
  induction v as [|b|z|tx|s|l IH|l IH|d IH|] using jv_rect'; cbn [writable]; try reflexivity.
  - change (as_json (JList l)) with (JList (map as_json l)). rewrite fold_and. intros W ind level. cbn [dumps]. f_equal. f_equal. rewrite map_map. apply map_ext_in. intros v I.
    rewrite Forall_forall in IH, W. auto.
  - change (as_json (JTuple l)) with (JList (map as_json l)). rewrite fold_and. intros W ind level. cbn [dumps]. f_equal. f_equal. rewrite map_map. apply map_ext_in. intros v I.
    rewrite Forall_forall in IH, W. auto.
  - change (as_json (JDict d)) with (str_dict (map (fun kv => (key_back (fst kv), as_json (snd kv))) d)).
    rewrite (fold_and (fun kv => fst kv <> JKOther /\ writable (snd kv))). intros W ind level. unfold str_dict. cbn [dumps]. f_equal. f_equal. rewrite !map_map. apply map_ext_in. intros [k v] I.
    rewrite Forall_forall in IH, W. cbn [fst snd]. destruct (W _ I) as [NK WV]. cbn [fst snd] in *. rewrite (IH _ I WV). cbn [snd key_str]. unfold key_back.
    destruct k; try reflexivity. congruence.
Qed.
Theorem dumps_equal refloat v w ind level : value_ok refloat v -> value_ok refloat w -> writable v ->
  (dumps ind level v = dumps ind level w <-> writable w /\ as_json v = as_json w).
Proof.
  intros OV OW WV. destruct (proj1 (dumps_writable v ind level) WV) as [t E]. split.
  - intros EQ. rewrite E in EQ. split; [apply (dumps_writable w ind level); eauto|].
    pose proof (scan_dumps refloat str_dict v OV ind level t E [] (length t) I (le_n _)) as R1.
    pose proof (scan_dumps refloat str_dict w OW ind level t (eq_sym EQ) [] (length t) I (le_n _)) as R2. rewrite R1 in R2. now injection R2.
  - intros [WW EQ]. rewrite <- (dumps_as_json v WV), <- (dumps_as_json w WW), EQ. reflexivity.
Qed.
