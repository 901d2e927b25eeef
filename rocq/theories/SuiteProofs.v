From Verif Require Import PyStrFacts SuiteModel.
From Coq Require Import Lia Permutation.

Lemma NoDup_app_iff_snoc {A} (l : list A) x : NoDup (l ++ [x]) <-> NoDup l /\ ~ In x l.
Proof.
  split.
  - intros H. split; [apply NoDup_remove_1 in H; now rewrite app_nil_r in H|apply NoDup_remove_2 in H; now rewrite app_nil_r in H].
  - intros [H N]. apply (Permutation_NoDup (l := x :: l)); [apply Permutation_cons_append|now constructor].
Qed.

(** ** naming *)
Section Naming.
  Variable cc : CharClass.

  Lemma camel_app p a b : a <> [] ->
    camel cc p (a ++ b) = camel cc p a ++ camel cc (negb (cc_upper cc (last a 0%N))) b.
  Proof.
    revert p. induction a as [|c a IH]; intros p H; [congruence|].
    cbn [app camel]. destruct a as [|d a].
    - cbn [app camel last]. now rewrite app_nil_r, app_assoc.
    - rewrite IH by discriminate. change (last (c :: d :: a) 0%N) with (last (d :: a) 0%N).
      now rewrite <- !app_assoc.
  Qed.

  Lemma remove_app c a b : remove_char c (a ++ b) = remove_char c a ++ remove_char c b.
  Proof. apply filter_app. Qed.

  Lemma camel_letters p s : remove_char USCORE (camel cc p s) = remove_char USCORE (str_lower cc s).
  Proof.
    revert p. induction s as [|c s IH]; intros p; [reflexivity|].
    cbn [camel str_lower flat_map]. rewrite !remove_app. fold (str_lower cc s). rewrite IH.
    destruct (p && cc_upper cc c); reflexivity.
  Qed.

  Lemma camel_lower : (forall c x, In x (cc_lower cc c) -> cc_upper cc x = false) -> cc_upper cc USCORE = false ->
    forall s p x, In x (camel cc p s) -> cc_upper cc x = false.
  Proof.
    intros HL HU s. induction s as [|c s IH]; intros p x H; [destruct H|].
    cbn [camel] in H. rewrite !in_app_iff in H. destruct H as [H|[H|H]]; eauto.
    destruct (p && cc_upper cc c); [destruct H as [<-|[]]; assumption|destruct H].
  Qed.

  Lemma lower_app a b : str_lower cc (a ++ b) = str_lower cc a ++ str_lower cc b.
  Proof. apply flat_map_app. Qed.

  Lemma lower_idem : (forall c x, In x (cc_lower cc c) -> cc_lower cc x = [x]) -> cc_lower cc USCORE = [USCORE] ->
    forall s p, str_lower cc (camel cc p s) = camel cc p s.
  Proof.
    intros HL HU s. induction s as [|c s IH]; intros p; [reflexivity|]. cbn [camel].
    rewrite !lower_app, IH. f_equal; [|f_equal].
    - destruct (p && cc_upper cc c); [|reflexivity]. cbn [str_lower flat_map]. now rewrite HU.
    - specialize (HL c). unfold str_lower. induction (cc_lower cc c) as [|y l IHl]; [reflexivity|].
      cbn [flat_map]. rewrite HL by now left. cbn. f_equal. apply IHl. intros. apply HL. now right.
  Qed.

  Lemma ends_with_longer a b s : ends_with (a ++ b) s = true -> ends_with b s = true.
  Proof. rewrite !ends_with_iff. intros (r & ->). exists (r ++ a). now rewrite app_assoc. Qed.

  Lemma clean_plain s : ends_with (lit "test") (str_lower cc s) = false -> ends_with (lit "book") (str_lower cc s) = false ->
    clean_test_postfix cc s = str_lower cc s.
  Proof.
    intros HT HB. unfold clean_test_postfix. cbv zeta.
    assert (B : forall a, ends_with (a ++ lit "book") (str_lower cc s) = false).
    { intros a. apply not_true_is_false. intros X. apply ends_with_longer in X. congruence. }
    assert (T : forall a, ends_with (a ++ lit "test") (str_lower cc s) = false).
    { intros a. apply not_true_is_false. intros X. apply ends_with_longer in X. congruence. }
    change (lit "_testbook") with (lit "_test" ++ lit "book"). change (lit "testbook") with (lit "test" ++ lit "book").
    change (lit "_test_book") with (lit "_test_" ++ lit "book"). change (lit "test_book") with (lit "test_" ++ lit "book").
    change (lit "_book") with (lit "_" ++ lit "book"). change (lit "_test") with (lit "_" ++ lit "test") at 2 3.
    rewrite !B. change (lit "_test") with (lit "_" ++ lit "test"). now rewrite T, HT, HB.
  Qed.

  Lemma join_last_app sep P x : P <> [] -> join_with sep (P ++ [x]) = join_with sep P ++ sep ++ x.
  Proof.
    induction P as [|p P IH]; [congruence|]. intros _. destruct P as [|q P]; [reflexivity|].
    change ((p :: q :: P) ++ [x]) with (p :: (q :: P) ++ [x]). rewrite join_cons by discriminate.
    rewrite IH by discriminate. rewrite (join_cons sep p (q :: P)) by discriminate. now rewrite <- !app_assoc.
  Qed.

  Lemma class_path_inj m c d :
    class_to_test_path cc m c = class_to_test_path cc m d ->
    remove_char USCORE (clean_class_name cc c) = remove_char USCORE (clean_class_name cc d).
  Proof.
    unfold class_to_test_path. cbv zeta.
    set (P := firstn _ _). set (f := clean_test_postfix cc (nth _ _ _)).
    destruct (str_eqb_spec (remove_char USCORE f) (remove_char USCORE (clean_class_name cc c))) as [E|E];
    destruct (str_eqb_spec (remove_char USCORE f) (remove_char USCORE (clean_class_name cc d))) as [F|F];
    try congruence; rewrite ?app_assoc, ?app_nil_r; rewrite ?(join_last_app [SLASH] (P ++ [f])) by (destruct P; discriminate);
    intros X.
    - exfalso. apply (f_equal (@length _)) in X. rewrite !app_length in X. cbn [length] in X. unfold str, char in *. lia.
    - exfalso. apply (f_equal (@length _)) in X. rewrite !app_length in X. cbn [length] in X. unfold str, char in *. lia.
    - apply app_inv_head in X. injection X as X. now rewrite X.
  Qed.
End Naming.

Lemma clean_method_iff n x : clean_method_name n = Some x <-> n = lit "test_" ++ x.
Proof.
  unfold clean_method_name. destruct (starts_with (lit "test_") n) eqn:E.
  - apply starts_with_iff in E. destruct E as [r ->]. rewrite skipn_app, Nat.sub_diag, skipn_all. cbn [skipn app].
    split; [intros [= ->]; reflexivity|]. intros H. apply app_inv_head in H. now subst.
  - split; [discriminate|]. intros ->. rewrite starts_with_app in E. discriminate.
Qed.

(** ** suites *)
Section Suites.
  Context {M : Type}.
  Implicit Types cs : cases M.

  Definition plain (n : str) : Prop := starts_with [SLASH] n = false.

  Lemma skipn_exact (a b : str) : skipn (length a) (a ++ b) = b.
  Proof. rewrite skipn_app, skipn_all, Nat.sub_diag. reflexivity. Qed.

  Lemma path_join_full p n : p <> [] -> plain n -> path_join p n = full_prefix p ++ n.
  Proof.
    intros Hp Hn. unfold path_join, full_prefix. rewrite Hn.
    destruct p as [|c p]; [congruence|]. destruct (ends_with [SLASH] (c :: p)); [reflexivity|]. now rewrite <- app_assoc.
  Qed.

  Lemma drop_prefix_suite p cs : p <> [] -> Forall (fun c => plain (fst c)) cs ->
    drop_prefix p (test_suite p cs) = cs.
  Proof.
    intros Hp. induction 1 as [|[n m] cs Hn _ IH]; [reflexivity|].
    unfold test_suite, drop_prefix in *. cbn [map flat_map fst snd]. rewrite IH.
    rewrite path_join_full by assumption. rewrite starts_with_app, skipn_exact. reflexivity.
  Qed.

  Lemma drop_prefix_cons p n m cs :
    drop_prefix p ((n, m) :: cs) =
    (if starts_with (full_prefix p) n then [(skipn (length (full_prefix p)) n, m)] else []) ++ drop_prefix p cs.
  Proof. reflexivity. Qed.

  Lemma drop_prefix_In p n m cs : In (n, m) (drop_prefix p cs) <-> In (full_prefix p ++ n, m) cs.
  Proof.
    induction cs as [|[k v] cs IH]; [reflexivity|]. rewrite drop_prefix_cons, in_app_iff, IH. cbn [In].
    destruct (starts_with (full_prefix p) k) eqn:E.
    - apply starts_with_iff in E. destruct E as [r ->]. rewrite skipn_exact. cbn [In].
      split; (intros [H|H]; [left|now right]).
      + destruct H as [H|[]]. now injection H as -> ->.
      + injection H as H ->. apply app_inv_head in H. subst. now left.
    - cbn [In]. split; [intuition|]. intros [H|H]; [|now right]. injection H as -> ->.
      rewrite starts_with_app in E. discriminate.
  Qed.

  Lemma starts_with_app_iff a b s : starts_with (a ++ b) s = true <-> exists r, s = a ++ r /\ starts_with b r = true.
  Proof.
    rewrite starts_with_iff. split.
    - intros (r & ->). rewrite <- app_assoc. eexists. split; [reflexivity|]. apply starts_with_app.
    - intros (r & -> & H). apply starts_with_iff in H. destruct H as [t ->]. exists t. now rewrite app_assoc.
  Qed.

  Lemma drop_prefix_app p q cs : full_prefix (full_prefix p ++ q) = full_prefix p ++ full_prefix q ->
    drop_prefix q (drop_prefix p cs) = drop_prefix (full_prefix p ++ q) cs.
  Proof.
    intros HE. induction cs as [|[n m] cs IH]; [reflexivity|]. rewrite !drop_prefix_cons.
    assert (DA : forall a b : cases M, drop_prefix q (a ++ b) = drop_prefix q a ++ drop_prefix q b) by (intros; apply flat_map_app).
    rewrite DA, IH. f_equal. rewrite HE. unfold drop_prefix. destruct (starts_with (full_prefix p ++ full_prefix q) n) eqn:E.
    - apply starts_with_app_iff in E. destruct E as (r & -> & E). rewrite starts_with_app, skipn_exact.
      cbn [flat_map fst snd]. rewrite E. apply starts_with_iff in E. destruct E as [t ->].
      rewrite skipn_exact, app_assoc, skipn_exact. reflexivity.
    - destruct (starts_with (full_prefix p) n) eqn:F; [|reflexivity]. apply starts_with_iff in F. destruct F as [r ->].
      rewrite skipn_exact. cbn [flat_map fst snd]. destruct (starts_with (full_prefix q) r) eqn:G; [|reflexivity].
      exfalso. assert (starts_with (full_prefix p ++ full_prefix q) (full_prefix p ++ r) = true) as X; [|congruence].
      apply starts_with_app_iff. eauto.
  Qed.

  Lemma test_suite_inj p cs : p <> [] -> Forall (fun c => plain (fst c)) cs ->
    NoDup (map fst cs) -> NoDup (map fst (test_suite p cs)).
  Proof.
    intros Hp HF ND. unfold test_suite. rewrite map_map. cbn [fst].
    revert ND. induction HF as [|[n m] cs Hn HF IH]; cbn [map fst]; [constructor|].
    inversion 1 as [|? ? NI ND']; subst. constructor; [|now apply IH].
    rewrite in_map_iff. intros ([k v] & E & I). cbn [fst] in E.
    rewrite Forall_forall in HF. rewrite !path_join_full in E by (try assumption; apply (HF _ I)).
    apply app_inv_head in E. subst. apply NI. apply in_map_iff. now exists (n, v).
  Qed.

  Lemma merge_eq (t : tests M) : merge_tests t = cases_of t.
  Proof. unfold merge_tests. erewrite map_ext; [apply map_id|]. now intros []. Qed.
End Suites.

Lemma full_prefix_app p q : q <> [] -> full_prefix (full_prefix p ++ q) = full_prefix p ++ full_prefix q.
Proof.
  intros Hq. generalize (full_prefix p). intros P. unfold full_prefix.
  assert (E : ends_with [SLASH] (P ++ q) = ends_with [SLASH] q).
  { destruct (ends_with [SLASH] q) eqn:E.
    - apply ends_with_iff in E. destruct E as [r ->]. apply ends_with_iff. exists (P ++ r). now rewrite app_assoc.
    - apply not_true_is_false. intros X. apply ends_with_iff in X. destruct X as [r X].
      destruct (exists_last Hq) as (q' & c & ->). rewrite app_assoc in X. apply app_inj_tail in X. destruct X as [_ ->].
      assert (ends_with [SLASH] (q' ++ [SLASH]) = true) by (apply ends_with_iff; eauto). congruence. }
  rewrite E. destruct (ends_with [SLASH] q); [reflexivity|]. now rewrite <- app_assoc.
Qed.

Section Books.
  Context {M : Type}.
  Implicit Types b : class_body M.

  Definition add_name (names : list str) (kv : str * M) := if str_mem (fst kv) names then names else names ++ [fst kv].

  Lemma names_from b : forall acc, NoDup acc ->
    exists new, fold_left add_name b acc = acc ++ new /\ NoDup (acc ++ new) /\
      (forall x, In x (acc ++ new) <-> In x acc \/ In x (map fst b)).
  Proof.
    induction b as [|[k v] b IH]; intros acc ND; cbn [fold_left map fst].
    - exists []. rewrite app_nil_r. split; [reflexivity|]. split; [assumption|]. cbn. tauto.
    - unfold add_name at 2. cbn [fst]. destruct (str_mem k acc) eqn:E.
      + apply str_mem_In in E. destruct (IH acc ND) as (new & A & B & C). exists new. split; [exact A|]. split; [exact B|].
        intros x. rewrite C. cbn. intuition (subst; auto).
      + apply str_mem_not_In in E. destruct (IH (acc ++ [k])) as (new & A & B & C).
        { rewrite NoDup_app_iff_snoc. now split. }
        exists (k :: new). rewrite <- app_assoc in A, B, C. cbn [app] in *. split; [exact A|]. split; [exact B|].
        intros x. rewrite C, in_app_iff. cbn. tauto.
  Qed.

  Lemma names_nodup b : NoDup (member_names b).
  Proof. destruct (names_from b [] (NoDup_nil _)) as (new & A & B & _). unfold member_names. fold add_name. now rewrite A. Qed.

  Lemma names_In b x : In x (member_names b) <-> In x (map fst b).
  Proof.
    destruct (names_from b [] (NoDup_nil _)) as (new & A & _ & C). unfold member_names. fold add_name.
    rewrite A, C. cbn. tauto.
  Qed.

  Lemma names_split (a : class_body M) k v c : ~ In k (map fst a) ->
    exists after, member_names (a ++ (k, v) :: c) = member_names a ++ k :: after.
  Proof.
    intros H. unfold member_names. fold add_name. rewrite fold_left_app. cbn [fold_left].
    assert (E : str_mem k (fold_left add_name a []) = false).
    { apply str_mem_not_In. change (fold_left add_name a []) with (member_names a). now rewrite names_In. }
    unfold add_name at 2. cbn [fst]. rewrite E.
    destruct (names_from c (fold_left add_name a [] ++ [k])) as (new & A & _).
    { rewrite NoDup_app_iff_snoc. apply str_mem_not_In in E. split; [apply names_nodup|assumption]. }
    exists new. rewrite A, <- app_assoc. reflexivity.
  Qed.

  Lemma member_iff b n m : member n b = Some m <-> exists a c, b = a ++ (n, m) :: c /\ ~ In n (map fst c).
  Proof.
    revert m. induction b as [|[k v] b IH]; intros m; cbn [member].
    - split; [discriminate|]. intros (a & c & E & _). now destruct a.
    - destruct (member n b) as [w|] eqn:E.
      + destruct (IH w) as [IH1 _]. destruct (IH1 eq_refl) as (a & c & Eb & NI). split.
        * intros [= ->]. exists ((k, v) :: a), c. subst b. now split.
        * intros (a' & c' & E' & NI'). destruct a' as [|[k' v'] a']; injection E' as -> -> E'.
          -- exfalso. apply NI'. rewrite <- E', Eb, map_app, in_app_iff. right. now left.
          -- f_equal. assert (Some w = Some m) as [= ->]; [|reflexivity]. apply IH. exists a', c'. now split.
      + assert (NB : ~ In n (map fst b)).
        { intros I. clear IH. induction b as [|[k' v'] b IHb]; [destruct I|]. cbn [member] in E. cbn in I.
          destruct (member n b) eqn:E2; [discriminate|]. destruct I as [->|I]; [rewrite str_eqb_refl in E; discriminate|].
          now apply IHb. }
        destruct (str_eqb_spec n k) as [->|NE]; split.
        * intros [= ->]. exists [], b. now split.
        * intros (a & c & E' & NI). destruct a as [|[k' v'] a]; injection E'; intros; subst; [reflexivity|].
          destruct NB. rewrite map_app, in_app_iff. right. now left.
        * discriminate.
        * intros (a & c & E' & NI). destruct a as [|[k' v'] a]; injection E'; intros; subst; [congruence|].
          destruct NB. rewrite map_app, in_app_iff. right. now left.
  Qed.

  Lemma member_exists b n : In n (map fst b) -> exists m, member n b = Some m.
  Proof.
    induction b as [|[k v] b IH]; cbn; [tauto|]. destruct (member n b) as [w|]; [eauto|].
    intros [->|I]; [rewrite str_eqb_refl; eauto|]. destruct (IH I). discriminate.
  Qed.

  Definition book_case (mro : list (class_body M)) (name : str) : list (str * M) :=
    match clean_method_name name, get_member name mro with Some n, Some m => [(n, m)] | _, _ => [] end.

  Lemma test_book_eq p b bases :
    test_book p (b :: bases) = test_suite p (flat_map (book_case (b :: bases)) (member_names b)).
  Proof. reflexivity. Qed.

  Lemma book_case_own b bases x : In (lit "test_" ++ x) (map fst b) ->
    exists m, member (lit "test_" ++ x) b = Some m /\ book_case (b :: bases) (lit "test_" ++ x) = [(x, m)].
  Proof.
    intros H. destruct (member_exists _ _ H) as [m E]. exists m. split; [exact E|].
    unfold book_case. assert (clean_method_name (lit "test_" ++ x) = Some x) as -> by (apply clean_method_iff; reflexivity).
    cbn [get_member]. now rewrite E.
  Qed.

  Lemma book_In b bases x m :
    In (x, m) (flat_map (book_case (b :: bases)) (member_names b)) <->
    exists a c, b = a ++ (lit "test_" ++ x, m) :: c /\ ~ In (lit "test_" ++ x) (map fst c).
  Proof.
    rewrite <- member_iff, in_flat_map. split.
    - intros (n & I & H). rewrite names_In in I. unfold book_case in H.
      destruct (clean_method_name n) as [y|] eqn:E; [|destruct H]. apply clean_method_iff in E. subst n.
      destruct (member_exists _ _ I) as [w Ew]. cbn [get_member] in H. rewrite Ew in H. destruct H as [[= -> ->]|[]]. exact Ew.
    - intros H. assert (I : In (lit "test_" ++ x) (map fst b)).
      { apply member_iff in H. destruct H as (a & c & -> & _). rewrite map_app, in_app_iff. right. now left. }
      exists (lit "test_" ++ x). split; [now apply names_In|].
      destruct (book_case_own b bases x I) as (w & A & B). rewrite B. left. rewrite H in A. injection A as ->. reflexivity.
  Qed.

  Lemma book_names_nodup b bases : NoDup (map fst (flat_map (book_case (b :: bases)) (member_names b))).
  Proof.
    pose proof (names_nodup b) as ND. induction (member_names b) as [|n l IH]; [constructor|].
    inversion ND as [|? ? NI ND']; subst. cbn [flat_map]. rewrite map_app.
    unfold book_case at 1. destruct (clean_method_name n) as [x|] eqn:E; [|now apply IH].
    destruct (get_member n (b :: bases)); [|now apply IH]. cbn [map fst app]. constructor; [|now apply IH].
    rewrite in_map_iff. intros ([y w] & Ey & I). cbn in Ey. subst y. apply in_flat_map in I. destruct I as (k & Ik & I).
    unfold book_case in I. destruct (clean_method_name k) as [z|] eqn:Ek; [|destruct I].
    destruct (get_member k (b :: bases)); [|destruct I]. destruct I as [[= -> ->]|[]].
    apply clean_method_iff in E, Ek. subst. contradiction.
  Qed.

  Lemma book_order b bases x y a v c :
    b = a ++ (lit "test_" ++ x, v) :: c -> ~ In (lit "test_" ++ x) (map fst a) -> ~ In (lit "test_" ++ y) (map fst a) ->
    x <> y -> In (lit "test_" ++ y) (map fst b) ->
    exists l1 l2 l3, map fst (flat_map (book_case (b :: bases)) (member_names b)) = l1 ++ x :: l2 ++ y :: l3.
  Proof.
    intros Hb NX NY NE IY.
    destruct (names_split a (lit "test_" ++ x) v c NX) as [after EN].
    assert (EN' : member_names b = member_names a ++ (lit "test_" ++ x) :: after) by (rewrite Hb; exact EN).
    clear EN. rename EN' into EN.
    assert (IX : In (lit "test_" ++ x) (map fst b)).
    { rewrite Hb, map_app, in_app_iff. right. now left. }
    destruct (book_case_own b bases x IX) as (mx & _ & BX). destruct (book_case_own b bases y IY) as (my & _ & BY).
    apply names_In in IY. rewrite EN, in_app_iff, names_In in IY. destruct IY as [IY|[IY|IY]]; [contradiction| |].
    { apply app_inv_head in IY. contradiction. }
    apply in_split in IY. destruct IY as (u & w & ->). rewrite EN.
    rewrite flat_map_app. cbn [flat_map]. rewrite flat_map_app. cbn [flat_map]. rewrite BX, BY.
    rewrite !map_app. cbn [map app fst]. eexists. eexists. eexists. reflexivity.
  Qed.

  (** ** detection *)
  Lemma parse_file_In cc root f (ms : list (str * mod_member M)) n m :
    In (n, m) (flat_map cases_of (parse_test_file cc root f ms)) <->
    exists name mm, In (name, mm) ms /\
      ((mm = MFunc m /\ exists x, name = lit "test_" ++ x /\
          n = path_join (path_join root (clean_test_postfix cc (firstn (length f - 3) f))) x) \/
       (exists cs, (mm = MTests cs \/ mm = MClass 0 cs) /\ In (n, m) cs)).
  Proof.
    unfold parse_test_file. cbv zeta. set (suite := path_join root _).
    assert (T : forall l : cases M, flat_map cases_of (match l with [] => [] | _ => [Tests l] end) = l).
    { intros [|? ?]; [reflexivity|]. cbn. now rewrite app_nil_r. }
    rewrite flat_map_app, T, in_app_iff. split.
    - intros [H|H].
      + apply in_flat_map in H. destruct H as (t & It & H). apply in_flat_map in It. destruct It as ([name mm] & I & It).
        exists name, mm. split; [exact I|]. right. unfold file_object in It. cbn [snd] in It.
        destruct mm as [[|k] book|t'|g|]; try (now destruct It); destruct It as [<-|[]]; cbn [cases_of] in H; eauto.
      + apply in_flat_map in H. destruct H as ([name mm] & I & H). exists name, mm. split; [exact I|]. left.
        unfold file_function in H. cbn [fst snd] in H. destruct mm as [k book|t'|g|]; try (now destruct H).
        destruct (clean_method_name name) as [x|] eqn:E; [|destruct H]. apply clean_method_iff in E.
        destruct H as [[= <- <-]|[]]. split; [reflexivity|]. eauto.
    - intros (name & mm & I & [(-> & x & -> & ->)|(cs & [-> | ->] & H)]).
      + right. apply in_flat_map. eexists. split; [exact I|]. unfold file_function. cbn [fst snd].
        assert (clean_method_name (lit "test_" ++ x) = Some x) as -> by (apply clean_method_iff; reflexivity). now left.
      + left. apply in_flat_map. exists (Tests cs). split; [|exact H]. apply in_flat_map. eexists. split; [exact I|]. now left.
      + left. apply in_flat_map. exists (Tests cs). split; [|exact H]. apply in_flat_map. eexists. split; [exact I|]. now left.
  Qed.

  Lemma detect_In cc (walk : list (str * list (str * list (str * mod_member M)))) n m :
    In (n, m) (detect_test_suite cc walk) <->
    exists root files f ms, In (root, files) walk /\ In (f, ms) files /\ is_test_file f = true /\
      In (n, m) (flat_map cases_of (parse_test_file cc root f ms)).
  Proof.
    unfold detect_test_suite. rewrite merge_eq. cbn [cases_of].
    unfold detect_tests. rewrite in_flat_map. split.
    - intros (t & I & H). apply in_flat_map in I. destruct I as ([root files] & ID & I). cbn [fst snd] in I.
      apply in_flat_map in I. destruct I as ([f ms] & IF & I). cbn [fst snd] in I.
      destruct (is_test_file f) eqn:E; [|destruct I]. exists root, files, f, ms.
      repeat split; try assumption. apply in_flat_map. eauto.
    - intros (root & files & f & ms & ID & IF & E & H). apply in_flat_map in H. destruct H as (t & I & H).
      exists t. split; [|exact H]. apply in_flat_map. exists (root, files). split; [exact ID|]. cbn [fst snd].
      apply in_flat_map. exists (f, ms). split; [exact IF|]. cbn [fst snd]. now rewrite E.
  Qed.
End Books.

(** ** detected names are distinct *)
Lemma slash_inj a b x y : ~ In SLASH x -> ~ In SLASH y -> a ++ SLASH :: x = b ++ SLASH :: y -> a = b /\ x = y.
Proof.
  revert b. induction a as [|c a IH]; intros [|d b] Hx Hy E; cbn [app] in E; inversion E; subst.
  - split; reflexivity.
  - destruct Hx. rewrite in_app_iff. right. now left.
  - destruct Hy. rewrite in_app_iff. right. now left.
  - destruct (IH b Hx Hy) as [-> ->]; [assumption|]. now split.
Qed.

Lemma nodup_suites {A} (sfx : A -> str) (names : A -> list str) l :
  NoDup (map sfx l) -> (forall a, In a l -> NoDup (names a) /\ forall x, In x (names a) -> ~ In SLASH x) ->
  NoDup (flat_map (fun a => map (fun x => sfx a ++ SLASH :: x) (names a)) l).
Proof.
  induction l as [|a l IH]; cbn [map flat_map]; intros ND H; [constructor|].
  inversion ND as [|? ? NI ND']; subst. destruct (H a (or_introl eq_refl)) as [NA SA].
  assert (IHl : NoDup (flat_map (fun a => map (fun x => sfx a ++ SLASH :: x) (names a)) l)).
  { apply IH; [assumption|]. intros. apply H. now right. }
  clear IH ND.
  assert (HD : forall x, In x (names a) -> ~ In (sfx a ++ SLASH :: x) (flat_map (fun a => map (fun x => sfx a ++ SLASH :: x) (names a)) l)).
  { intros x Ix I. apply in_flat_map in I. destruct I as (b & Ib & I). apply in_map_iff in I. destruct I as (y & E & Iy).
    destruct (H b (or_intror Ib)) as [_ SB]. apply slash_inj in E; auto. destruct E as [E _].
    apply NI. apply in_map_iff. now exists b. }
  clear H. induction (names a) as [|x xs IHx]; cbn [map app]; [assumption|].
  inversion NA as [|? ? NX NA']; subst. constructor.
  - rewrite in_app_iff. intros [I|I].
    + apply in_map_iff in I. destruct I as (y & E & Iy). apply slash_inj in E; [|apply SA; now right|apply SA; now left].
      destruct E as [_ ->]. contradiction.
    + apply (HD x); [now left|assumption].
  - apply IHx; [assumption| |]; intros; [apply SA|apply HD]; now right.
Qed.

Section Detect.
  Context {M : Type} (cc : CharClass).

  Definition test_files (walk : list (str * list (str * list (str * mod_member M)))) : list (str * str * list (str * mod_member M)) :=
    flat_map (fun d => flat_map (fun f => if is_test_file (fst f) then [(fst d, fst f, snd f)] else []) (snd d)) walk.
  Definition suite_of (x : str * str * list (str * mod_member M)) : str :=
    path_join (fst (fst x)) (clean_test_postfix cc (firstn (length (snd (fst x)) - 3) (snd (fst x)))).
  Definition test_names (ms : list (str * mod_member M)) : list str :=
    flat_map (fun nm => match snd nm with
                        | MFunc _ => match clean_method_name (fst nm) with Some x => [x] | None => [] end
                        | _ => [] end) ms.

  Lemma flat_map_flat_map {A B C} (f : A -> list B) (g : B -> list C) l :
    flat_map g (flat_map f l) = flat_map (fun x => flat_map g (f x)) l.
  Proof. induction l as [|a l IH]; [reflexivity|]. cbn. now rewrite flat_map_app, IH. Qed.

  Lemma detect_eq walk :
    detect_test_suite cc walk =
    flat_map (fun x => flat_map cases_of (parse_test_file cc (fst (fst x)) (snd (fst x)) (snd x))) (test_files walk).
  Proof.
    unfold detect_test_suite. rewrite merge_eq. cbn [cases_of]. unfold detect_tests, test_files.
    rewrite !flat_map_flat_map. apply flat_map_ext. intros [root files]. cbn [fst snd].
    rewrite !flat_map_flat_map. apply flat_map_ext. intros [f ms]. cbn [fst snd].
    destruct (is_test_file f); cbn [flat_map fst snd]; now rewrite ?app_nil_r.
  Qed.

  Lemma parse_only_functions root f ms :
    (forall name mm, In (name, mm) ms -> exists g, mm = MFunc g \/ mm = MOther) ->
    (forall x, In x (test_names ms) -> ~ In SLASH x) ->
    let s := suite_of (root, f, ms) in s <> [] -> ends_with [SLASH] s = false ->
    map fst (flat_map cases_of (parse_test_file cc root f ms)) = map (fun x => s ++ SLASH :: x) (test_names ms).
  Proof.
    cbv zeta. unfold suite_of. cbn [fst snd]. intros HF HS SN SE. unfold parse_test_file. cbv zeta.
    set (s := path_join root _) in *.
    assert (T : forall l : cases M, flat_map cases_of (match l with [] => [] | _ => [Tests l] end) = l).
    { intros [|? ?]; [reflexivity|]. cbn. now rewrite app_nil_r. }
    rewrite flat_map_app, T.
    assert (O : flat_map file_object ms = []).
    { clear HS. induction ms as [|[name mm] ms IH]; [reflexivity|]. cbn [flat_map].
      destruct (HF name mm (or_introl eq_refl)) as [g [-> | ->]]; cbn [file_object snd app]; apply IH; intros; eapply HF; right; eassumption. }
    rewrite O. cbn [flat_map app]. clear O. induction ms as [|[name mm] ms IH]; [reflexivity|].
    cbn [flat_map test_names] in *. rewrite !map_app. fold (test_names ms) in *.
    rewrite IH; [|intros; eapply HF; right; eassumption|intros; apply HS; rewrite in_app_iff; now right].
    f_equal. unfold file_function. cbn [fst snd] in *.
    destruct mm as [? ?|?|g|]; try reflexivity. destruct (clean_method_name name) as [x|]; [|reflexivity].
    cbn [map fst]. f_equal. assert (NS : starts_with [SLASH] x = false).
    { destruct x as [|c x]; [reflexivity|]. cbn [starts_with]. rewrite andb_true_r. apply N.eqb_neq. intros <-.
      apply (HS (SLASH :: x)); [now left|now left]. }
    unfold path_join. rewrite NS. destruct s as [|c s']; [congruence|]. rewrite SE. reflexivity.
  Qed.

  Lemma test_names_In ms x : In x (test_names ms) <-> exists g, In (lit "test_" ++ x, MFunc g) ms.
  Proof.
    unfold test_names. rewrite in_flat_map. split.
    - intros ([name mm] & I & H). cbn [fst snd] in H. destruct mm as [? ?|?|g|]; try (now destruct H).
      destruct (clean_method_name name) as [y|] eqn:E; [|destruct H]. apply clean_method_iff in E. destruct H as [-> |[]].
      subst. eauto.
    - intros (g & I). eexists. split; [exact I|]. cbn [fst snd].
      assert (clean_method_name (lit "test_" ++ x) = Some x) as -> by (apply clean_method_iff; reflexivity). now left.
  Qed.

  Lemma test_names_nodup ms : NoDup (map fst ms) -> NoDup (test_names ms).
  Proof.
    induction ms as [|[name mm] ms IH]; [constructor|]. cbn [map fst]. inversion 1 as [|? ? NI ND]; subst.
    unfold test_names. cbn [flat_map]. fold (test_names ms). cbn [fst snd].
    destruct mm as [? ?|?|g|]; try (now apply IH). destruct (clean_method_name name) as [x|] eqn:E; [|now apply IH].
    cbn [app]. constructor; [|now apply IH]. rewrite test_names_In. intros (h & I). apply clean_method_iff in E. subst.
    apply NI. apply in_map_iff. eexists. split; [|exact I]. reflexivity.
  Qed.

  Lemma map_flat_map {A B C} (f : B -> C) (g : A -> list B) l : map f (flat_map g l) = flat_map (fun x => map f (g x)) l.
  Proof. induction l as [|a l IH]; [reflexivity|]. cbn. now rewrite map_app, IH. Qed.

  Lemma flat_map_ext_in {A B} (f g : A -> list B) l : (forall a, In a l -> f a = g a) -> flat_map f l = flat_map g l.
  Proof. induction l as [|a l IH]; intros H; [reflexivity|]. cbn. rewrite H by now left. f_equal. apply IH. intros. apply H. now right. Qed.

  Lemma detect_nodup walk :
    (forall root f ms, In (root, f, ms) (test_files walk) ->
       NoDup (map fst ms) /\
       (forall name mm, In (name, mm) ms -> ~ In SLASH name /\ exists g, mm = MFunc g \/ mm = MOther) /\
       let s := suite_of (root, f, ms) in s <> [] /\ ends_with [SLASH] s = false) ->
    NoDup (map suite_of (test_files walk)) ->
    NoDup (map fst (detect_test_suite cc walk)).
  Proof.
    intros H ND. rewrite detect_eq, map_flat_map.
    assert (SL : forall root f ms, In (root, f, ms) (test_files walk) -> forall x, In x (test_names ms) -> ~ In SLASH x).
    { intros root f ms I x Ix. apply test_names_In in Ix. destruct Ix as [g Ix]. destruct (H _ _ _ I) as (_ & HM & _).
      destruct (HM _ _ Ix) as [HS _]. intros X. apply HS. rewrite in_app_iff. now right. }
    rewrite (flat_map_ext_in _ (fun x => map (fun n => suite_of x ++ SLASH :: n) (test_names (snd x)))).
    - apply (nodup_suites suite_of (fun x => test_names (snd x))); [assumption|].
      intros [[root f] ms] I. cbn [snd]. destruct (H _ _ _ I) as (NM & _). split; [now apply test_names_nodup|eapply SL; eassumption].
    - intros [[root f] ms] I. cbn [fst snd]. destruct (H _ _ _ I) as (NM & HM & SN & SE).
      apply parse_only_functions; auto; [intros; eapply HM; eassumption|eapply SL; eassumption].
  Qed.
End Detect.
