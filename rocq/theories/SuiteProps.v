(** Suites, names, test books and detection. *)
From Verif Require Import PyStrFacts SuiteModel SuiteProofs.

(** ** C53 *)

(** The cases of a nesting, one after the other. *)
Inductive flattens {M} : tests M -> cases M -> Prop :=
| fl_tests cs : flattens (Tests cs) cs
| fl_nil : flattens (Several []) []
| fl_cons t l a b : flattens t a -> flattens (Several l) b -> flattens (Several (t :: l)) (a ++ b).

Theorem C53_merge_keeps_all M (t : tests M) cs : merge_tests t = cs <-> flattens t cs.
Proof.
  rewrite merge_eq. split.
  - intros <-. revert t. fix F 1. intros [cs0|l]; [constructor|]. cbn [cases_of].
    induction l as [|t l IH]; cbn [flat_map]; constructor; [apply F|exact IH].
  - induction 1 as [| |t l a b _ IH1 _ IH2]; [reflexivity|reflexivity|].
    cbn [cases_of flat_map] in *. now rewrite IH1, IH2.
Qed.
Print Assumptions C53_merge_keeps_all.

Theorem C53_decorate_keeps_names M (d : M -> M) (t : tests M) :
  map fst (decorate_tests d t) = map fst (merge_tests t) /\
  map snd (decorate_tests d t) = map d (map snd (merge_tests t)).
Proof. unfold decorate_tests. rewrite merge_eq, !map_map. split; reflexivity. Qed.
Print Assumptions C53_decorate_keeps_names.

(** exactly the cases below the prefix, here one that does not end in a slash; the order is kept *)
Theorem C53_drop_prefix_exact M p (cs : cases M) n m : ends_with [SLASH] p = false ->
  In (n, m) (drop_prefix p cs) <-> In (p ++ lit "/" ++ n, m) cs.
Proof. intros H. rewrite drop_prefix_In. unfold full_prefix. rewrite H, <- app_assoc. reflexivity. Qed.
Print Assumptions C53_drop_prefix_exact.

Theorem C53_drop_prefix_order M p (a b : cases M) n (m : M) :
  drop_prefix p (a ++ b) = drop_prefix p a ++ drop_prefix p b /\
  length (drop_prefix p [(n, m)]) <= 1.
Proof.
  split; [apply flat_map_app|]. rewrite drop_prefix_cons, app_length. destruct (starts_with _ n); cbn; auto.
Qed.
Print Assumptions C53_drop_prefix_order.

(** dropping twice is dropping the combined prefix *)
Theorem C53_drop_prefix_twice M p q (cs : cases M) : ends_with [SLASH] p = false -> q <> [] ->
  drop_prefix q (drop_prefix p cs) = drop_prefix (p ++ lit "/" ++ q) cs.
Proof.
  intros H Hq. rewrite drop_prefix_app by now apply full_prefix_app.
  assert (E : full_prefix p = p ++ lit "/") by (unfold full_prefix; now rewrite H).
  rewrite E, <- app_assoc. reflexivity.
Qed.
Print Assumptions C53_drop_prefix_twice.

(** Undoing the prefixing fails for an empty prefix and for names that start with a slash. *)
Theorem C53_drop_undoes_refuted :
  (exists (cs : cases nat), Forall (fun c => starts_with (lit "/") (fst c) = false) cs /\
     drop_prefix [] (test_suite [] cs) <> cs) /\
  (exists p (cs : cases nat), p <> [] /\ drop_prefix p (test_suite p cs) <> cs).
Proof.
  split.
  - exists [(lit "a", 0)]. split; [repeat constructor|discriminate].
  - exists (lit "p"), [(lit "/a", 0)]. split; discriminate.
Qed.
Print Assumptions C53_drop_undoes_refuted.

Theorem C53_drop_undoes_partial M p (cs : cases M) :
  p <> [] -> Forall (fun c => starts_with (lit "/") (fst c) = false) cs ->
  drop_prefix p (test_suite p cs) = cs /\
  (ends_with [SLASH] p = false -> test_suite p cs = map (fun c => (p ++ lit "/" ++ fst c, snd c)) cs) /\
  (NoDup (map fst cs) -> NoDup (map fst (test_suite p cs))).
Proof.
  intros Hp HF. split; [now apply drop_prefix_suite|]. split; [|now apply test_suite_inj].
  intros HE. unfold test_suite. apply map_ext_in. intros [n m] I. rewrite Forall_forall in HF.
  cbn [fst snd]. rewrite path_join_full; [|assumption|exact (HF _ I)].
  unfold full_prefix. rewrite HE, <- app_assoc. reflexivity.
Qed.
Print Assumptions C53_drop_undoes_partial.

Definition ex_cases : cases nat := [(lit "a", 1); (lit "b/c", 2)].
Example C53_ex :
  Forall (fun c => starts_with (lit "/") (fst c) = false) ex_cases /\
  test_suite (lit "s") ex_cases = [(lit "s/a", 1); (lit "s/b/c", 2)] /\
  merge_tests (Several [Tests ex_cases; Several [Tests [(lit "z", 3)]; Several []]]) = ex_cases ++ [(lit "z", 3)] /\
  drop_prefix (lit "b") ex_cases = [(lit "c", 2)].
Proof. repeat split; repeat constructor. Qed.

(** ** C54 *)

Theorem C54_method_name n x : clean_method_name n = Some x <-> n = lit "test_" ++ x.
Proof. exact (clean_method_iff n x). Qed.
Print Assumptions C54_method_name.

(** distinct methods have distinct names *)
Theorem C54_method_name_distinct a b x : clean_method_name a = Some x -> clean_method_name b = Some x -> a = b.
Proof. rewrite !C54_method_name. congruence. Qed.
Print Assumptions C54_method_name_distinct.

(** Snake case, determined by: nothing for nothing, the lower case character for a character, and
    an underscore exactly where an upper case character follows one that is not. *)
Theorem C54_snake_case cc :
  camel_case_to_snake_case cc [] = [] /\
  (forall c, camel_case_to_snake_case cc [c] = cc_lower cc c) /\
  (forall a x y b, camel_case_to_snake_case cc (a ++ [x; y] ++ b) =
     camel_case_to_snake_case cc (a ++ [x])
     ++ (if negb (cc_upper cc x) && cc_upper cc y then lit "_" else [])
     ++ camel_case_to_snake_case cc (y :: b)).
Proof.
  split; [reflexivity|]. split; [intros; cbn; apply app_nil_r|]. intros a x y b.
  unfold camel_case_to_snake_case. replace (a ++ [x; y] ++ b) with ((a ++ [x]) ++ y :: b) by (symmetry; apply (app_assoc a [x] (y :: b))).
  rewrite camel_app by (destruct a; discriminate). rewrite last_last. reflexivity.
Qed.
Print Assumptions C54_snake_case.

(** the same letters; [remove_char] drops all underscores *)
Theorem C54_same_letters cc s :
  filter (fun c => negb (N.eqb c USCORE)) (camel_case_to_snake_case cc s) =
  filter (fun c => negb (N.eqb c USCORE)) (flat_map (cc_lower cc) s).
Proof. exact (camel_letters cc false s). Qed.
Print Assumptions C54_same_letters.

Theorem C54_snake_is_lower cc s x :
  (forall c x, In x (cc_lower cc c) -> cc_upper cc x = false) -> cc_upper cc USCORE = false ->
  In x (camel_case_to_snake_case cc s) -> cc_upper cc x = false.
Proof. intros A B. exact (camel_lower cc A B s false x). Qed.
Print Assumptions C54_snake_is_lower.

(** Classes of one module, and equally named classes of different modules, may get the same path. *)
Theorem C54_class_paths_distinct_refuted :
  (exists m c d, c <> d /\ class_to_test_path ascii_class m c = class_to_test_path ascii_class m d) /\
  (exists m m' c, m <> m' /\ class_to_test_path ascii_class m c = class_to_test_path ascii_class m' c).
Proof.
  split.
  - exists (lit "test.all"), (lit "FooTest"), (lit "FooBook"). split; [discriminate|vm_compute; reflexivity].
  - exists (lit "test.foo_test"), (lit "test.foo_book"), (lit "Foo"). split; [discriminate|vm_compute; reflexivity].
Qed.
Print Assumptions C54_class_paths_distinct_refuted.

(** Classes whose lower case names differ (other than in underscores) and whose snake case does not
    end in "test" or "book". *)
Theorem C54_class_paths_distinct_partial cc m c d :
  (forall c x, In x (cc_lower cc c) -> cc_lower cc x = [x]) -> cc_lower cc USCORE = lit "_" ->
  (forall s, In s [c; d] -> forall e, In e [lit "test"; lit "book"] -> forall r, camel_case_to_snake_case cc s <> r ++ e) ->
  filter (fun c => negb (N.eqb c USCORE)) (flat_map (cc_lower cc) c) <> filter (fun c => negb (N.eqb c USCORE)) (flat_map (cc_lower cc) d) ->
  class_to_test_path cc m c <> class_to_test_path cc m d.
Proof.
  intros HL HU HP HD X. apply class_path_inj in X. apply HD. clear HD.
  assert (C : forall s, In s [c; d] -> clean_class_name cc s = camel cc false s).
  { intros s Hs. unfold clean_class_name, camel_case_to_snake_case.
    rewrite clean_plain; rewrite lower_idem by assumption; [reflexivity| |];
      apply not_true_is_false; intros E; apply ends_with_iff in E; destruct E as [r E].
    - now apply (HP s Hs (lit "test") (or_introl eq_refl) r).
    - now apply (HP s Hs (lit "book") (or_intror (or_introl eq_refl)) r). }
  rewrite !C in X by (cbn; tauto). rewrite !camel_letters in X. exact X.
Qed.
Print Assumptions C54_class_paths_distinct_partial.

Example C54_ex :
  camel_case_to_snake_case ascii_class (lit "MyHTTPServerTest") = lit "my_httpserver_test" /\
  class_to_test_path ascii_class (lit "test.web.server_test") (lit "MyHTTPServerTest") = lit "test/web/server/my_httpserver" /\
  class_to_test_path ascii_class (lit "test.my_httpserver_test") (lit "MyHTTPServerTest") = lit "test/my_httpserver".
Proof. vm_compute. repeat split. Qed.

Example C54_ex_hyp : (forall c x, In x (cc_lower ascii_class c) -> cc_lower ascii_class x = [x]) /\
  (forall s, In s [lit "Foo"; lit "Bar"] -> forall e, In e [lit "test"; lit "book"] -> forall r, camel_case_to_snake_case ascii_class s <> r ++ e).
Proof.
  split.
  - intros c x. unfold ascii_class, in_range. cbn [cc_lower].
    destruct ((65 <=? c) && (c <=? 90))%N eqn:E.
    + intros [<-|[]]. apply andb_true_iff in E. destruct E as [A B]. apply N.leb_le in A. apply N.leb_le in B.
      replace ((c + 32 <=? 90)%N) with false; [now rewrite andb_false_r|]. symmetry. apply N.leb_gt. Lia.lia.
    + intros [<-|[]]. now rewrite E.
  - intros s Hs e He r X. assert (ends_with e (camel_case_to_snake_case ascii_class s) = true) by (apply ends_with_iff; eauto).
    destruct Hs as [<-|[<-|[]]], He as [<-|[<-|[]]]; vm_compute in H; discriminate.
Qed.

(** ** C66 *)

(** [b]: the assignments of the class body. Each own test method is listed once, with its last
    definition, in the order of the first definitions. *)
Theorem C66_book_lists_own_tests M p (b : class_body M) bases : p <> [] -> ends_with [SLASH] p = false ->
  (forall c, In c b -> ~ In SLASH (fst c)) ->
  let listed := test_book p (b :: bases) in
  NoDup (map fst listed) /\
  (forall n m, In (n, m) listed <->
     exists x a c, n = p ++ lit "/" ++ x /\ b = a ++ (lit "test_" ++ x, m) :: c /\ ~ In (lit "test_" ++ x) (map fst c)) /\
  (forall x y a v c, x <> y -> b = a ++ (lit "test_" ++ x, v) :: c ->
     ~ In (lit "test_" ++ x) (map fst a) -> ~ In (lit "test_" ++ y) (map fst a) -> In (lit "test_" ++ y) (map fst b) ->
     exists l1 l2 l3, map fst listed = l1 ++ [p ++ lit "/" ++ x] ++ l2 ++ [p ++ lit "/" ++ y] ++ l3).
Proof.
  intros Hp HE HS. cbv zeta. rewrite test_book_eq. set (cs := flat_map _ _).
  assert (PL : Forall (fun c => starts_with (lit "/") (fst c) = false) cs).
  { apply Forall_forall. intros [x m] I. apply book_In in I. destruct I as (a & c & Eb & _). cbn [fst].
    assert (NS : ~ In SLASH (lit "test_" ++ x)) by (apply (HS (lit "test_" ++ x, m)); rewrite Eb, in_app_iff; right; now left).
    destruct x as [|d x]; [reflexivity|]. change (lit "/") with [SLASH]. cbn [starts_with]. rewrite andb_true_r.
    apply N.eqb_neq. intros <-. apply NS. rewrite in_app_iff. right. now left. }
  destruct (C53_drop_undoes_partial M p cs Hp PL) as (_ & SE & ND). rewrite (SE HE). split; [|split].
  - rewrite <- (SE HE). apply ND. apply book_names_nodup.
  - intros n m. rewrite in_map_iff. split.
    + intros ([x m'] & [= <- <-] & I). apply book_In in I. destruct I as (a & c & E1 & E2). exists x, a, c. auto.
    + intros (x & a & c & -> & E1 & E2). exists (x, m). split; [reflexivity|]. apply book_In. eauto.
  - intros x y a v c NE Eb NX NY IY. destruct (book_order b bases x y a v c Eb NX NY NE IY) as (l1 & l2 & l3 & E).
    fold cs in E.
    assert (MM : map fst (map (fun c : str * M => (p ++ lit "/" ++ fst c, snd c)) cs) = map (fun n => p ++ lit "/" ++ n) (map fst cs)).
    { now rewrite !map_map. }
    assert (E' : map fst (map (fun c : str * M => (p ++ lit "/" ++ fst c, snd c)) cs)
                 = map (fun n => p ++ lit "/" ++ n) (l1 ++ x :: l2 ++ y :: l3)) by (rewrite MM; f_equal; exact E).
    exists (map (fun n => p ++ lit "/" ++ n) l1), (map (fun n => p ++ lit "/" ++ n) l2), (map (fun n => p ++ lit "/" ++ n) l3).
    etransitivity; [exact E'|]. rewrite map_app. cbn [map]. rewrite map_app. reflexivity.
Qed.
Print Assumptions C66_book_lists_own_tests.

(** Inherited test methods are not listed. *)
Theorem C66_inherited_tests_refuted : exists p (b base : class_body nat) m,
  get_member (lit "test_x") (b :: [base]) = Some m /\ test_book p (b :: [base]) = [].
Proof. exists (lit "p"), [], [(lit "test_x", 7)], 7. split; reflexivity. Qed.
Print Assumptions C66_inherited_tests_refuted.

Definition ex_body : class_body nat :=
  [(lit "test_b", 1); (lit "helper", 2); (lit "test_a", 3); (lit "test_b", 4)].
Example C66_ex : test_book (lit "p") [ex_body] = [(lit "p/b", 4); (lit "p/a", 3)] /\
  (forall c, In c ex_body -> ~ In SLASH (fst c)).
Proof.
  split; [vm_compute; reflexivity|]. intros c [<-|[<-|[<-|[<-|[]]]]]; cbn; intuition discriminate.
Qed.

(** ** C67 *)

(** Detection lists exactly the test functions, books and suites of the test files. *)
Theorem C67_detection_exact M cc (walk : list (str * list (str * list (str * mod_member M)))) n m :
  In (n, m) (detect_test_suite cc walk) <->
  exists root files f members, In (root, files) walk /\ In (f, members) files /\
    (exists r, f = r ++ lit "_test.py" \/ f = r ++ lit "_book.py" \/ f = r ++ lit "_suite.py" \/
               exists q, f = lit "test_" ++ r /\ f = q ++ lit ".py") /\
    exists name mm, In (name, mm) members /\
      ((mm = MFunc m /\ exists x, name = lit "test_" ++ x /\
          n = path_join (path_join root (clean_test_postfix cc (firstn (length f - 3) f))) x) \/
       (exists cs, (mm = MTests cs \/ mm = MClass 0 cs) /\ In (n, m) cs)).
Proof.
  assert (TF : forall f, is_test_file f = true <->
    exists r, f = r ++ lit "_test.py" \/ f = r ++ lit "_book.py" \/ f = r ++ lit "_suite.py" \/
              exists q, f = lit "test_" ++ r /\ f = q ++ lit ".py").
  { intros f. unfold is_test_file. rewrite !orb_true_iff, andb_true_iff, !ends_with_iff, starts_with_iff. split.
    - intros [[[[r H]|[r H]]|[r H]]|[[r H] [q G]]]; exists r; eauto 8.
    - intros [r [H|[H|[H|[q [H G]]]]]]; [left; left; left|left; left; right|left; right|right]; eauto. }
  rewrite detect_In. split.
  - intros (root & files & f & ms & A & B & C & D). exists root, files, f, ms. apply TF in C. apply parse_file_In in D. auto.
  - intros (root & files & f & ms & A & B & C & D). exists root, files, f, ms. apply TF in C. apply parse_file_In in D. auto.
Qed.
Print Assumptions C67_detection_exact.

(** A test book class imported into a second test file is detected twice. *)
Theorem C67_detected_once_refuted : exists (walk : list (str * list (str * list (str * mod_member nat)))) book,
  (forall root files f ms name mm, In (root, files) walk -> In (f, ms) files -> In (name, mm) ms ->
     name = lit "ATest" /\ mm = MClass 0 book) /\ NoDup (map fst book) /\
  ~ NoDup (map fst (detect_test_suite ascii_class walk)).
Proof.
  set (ms := [(lit "ATest", MClass 0 [(lit "t/a/x", 1)])]).
  exists [(lit "t", [(lit "a_test.py", ms); (lit "b_test.py", ms)])], [(lit "t/a/x", 1)].
  split; [|split].
  - intros root files f ms' name mm [[= <- <-]|[]] [[= <- <-]|[[= <- <-]|[]]] [[= <- <-]|[]]; split; reflexivity.
  - repeat constructor. auto.
  - intros ND. change (map fst _) with [lit "t/a/x"; lit "t/a/x"] in ND. inversion ND. apply H1. now left.
Qed.
Print Assumptions C67_detected_once_refuted.

(** Names are distinct when the test files contain functions only and no two files have the same
    suite path (directory and cleaned file name). *)
Theorem C67_detected_once_partial M cc (walk : list (str * list (str * list (str * mod_member M)))) :
  let files := flat_map (fun d => flat_map (fun f => if is_test_file (fst f) then [(fst d, fst f, snd f)] else []) (snd d)) walk in
  let suite x := path_join (fst (fst x)) (clean_test_postfix cc (firstn (length (snd (fst x)) - 3) (snd (fst x)))) in
  (forall x, In x files -> NoDup (map fst (snd x)) /\
     (forall name mm, In (name, mm) (snd x) -> ~ In SLASH name /\ exists g, mm = MFunc g \/ mm = MOther) /\
     suite x <> [] /\ ends_with [SLASH] (suite x) = false) ->
  NoDup (map suite files) ->
  NoDup (map fst (detect_test_suite cc walk)).
Proof. cbv zeta. intros H ND. apply detect_nodup; [|exact ND]. intros root f ms I. exact (H _ I). Qed.
Print Assumptions C67_detected_once_partial.

Definition ex_walk : list (str * list (str * list (str * mod_member nat))) :=
  [(lit "t", [(lit "a_test.py", [(lit "test_x", MFunc 1); (lit "test_y", MFunc 2); (lit "np", MOther)]);
              (lit "conftest.py", [(lit "test_x", MFunc 5)])]);
   (lit "t/sub", [(lit "test_b.py", [(lit "test_x", MFunc 3)])])].
Example C67_ex : detect_test_suite ascii_class ex_walk =
  [(lit "t/a/x", 1); (lit "t/a/y", 2); (lit "t/sub/test_b/x", 3)].
Proof. vm_compute. reflexivity. Qed.

(** the hypotheses of the last theorem hold of it *)
Example C67_ex_once : NoDup (map fst (detect_test_suite ascii_class ex_walk)).
Proof.
  apply C67_detected_once_partial.
  - cbv [ex_walk]. cbn [flat_map fst snd]. intros x.
    replace (is_test_file (lit "a_test.py")) with true by reflexivity.
    replace (is_test_file (lit "conftest.py")) with false by reflexivity.
    replace (is_test_file (lit "test_b.py")) with true by reflexivity. cbn [app].
    intros [<-|[<-|[]]]; (split; [cbn; repeat constructor; cbn; intuition discriminate|]);
      (split; [|split; [vm_compute; discriminate|vm_compute; reflexivity]]); cbn [snd];
      intros name mm H; repeat (destruct H as [[= <- <-]|H]); try (now destruct H);
      (split; [cbn; intuition discriminate|]); first [eexists; left; reflexivity|exists 0; right; reflexivity].
  - vm_compute. repeat constructor; cbn; intuition discriminate.
Qed.
