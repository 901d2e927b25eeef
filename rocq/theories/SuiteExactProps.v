(** C54: exactly which classes of a module get the same path. *)
From Verif Require Import PyStr PyStrFacts SuiteModel SuiteProofs SuiteProps VocabProps.
From Coq Require Import List Lia.
Import ListNotations.

(** [x] is [s] without the longest of the endings *)
Definition stem (s x : str) : Prop :=
  (s = x /\ forall e y, In e test_endings -> s <> y ++ e) \/
  exists e, In e test_endings /\ s = x ++ e /\ forall e' y, In e' test_endings -> s = y ++ e' -> length e' <= length e.
Lemma longest (L : list str) (s : str) :
  (forall e y, In e L -> s <> y ++ e) \/ exists e x, In e L /\ s = x ++ e /\ forall e' y, In e' L -> s = y ++ e' -> length e' <= length e.
Proof.
  induction L as [|a L IH]; [left; intros e y []|]. destruct (ends_with a s) eqn:E.
  - apply ends_with_iff in E as [z Ez]. destruct IH as [N|(e & x & I & EQ & M)].
    + right. exists a, z. split; [now left|]. split; [exact Ez|]. intros e' y [<-|J] X; [reflexivity|]. destruct (N e' y J X).
    + right. destruct (le_lt_dec (length a) (length e)) as [LE|LT].
      * exists e, x. split; [now right|]. split; [exact EQ|]. intros e' y [<-|J] X; [exact LE|exact (M e' y J X)].
      * exists a, z. split; [now left|]. split; [exact Ez|]. intros e' y [<-|J] X; [reflexivity|]. specialize (M e' y J X). lia.
  - assert (NA : forall y, s <> y ++ a) by (intros y ->; assert (X : ends_with a (y ++ a) = true) by (apply ends_with_iff; eauto); congruence).
    destruct IH as [N|(e & x & I & EQ & M)].
    + left. intros e y [<-|J]; [apply NA|exact (N e y J)].
    + right. exists e, x. split; [now right|]. split; [exact EQ|]. intros e' y [<-|J] X; [destruct (NA y X)|exact (M e' y J X)].
Qed.
(** every name has one *)
Theorem C54_stem s : exists x, stem s x /\ forall y, stem s y -> y = x.
Proof.
  assert (U : forall x y, stem s x -> stem s y -> y = x).
  { intros x y [[-> N]|(e & I & E & M)] [[E' N']|(e' & I' & E' & M')].
    - now symmetry.
    - destruct (N e' y I' E').
    - destruct (N' e x I E).
    - pose proof (M e' y I' E'). pose proof (M' e x I E). assert (LE : length e = length e') by lia. rewrite E in E'.
      assert (LX : length x = length y) by (apply (f_equal (@length _)) in E'; rewrite !app_length in E'; unfold str, char in *; lia).
      clear - E' LX. revert y E' LX. induction x as [|c x IH]; intros [|c' y] E' LX; try discriminate; [reflexivity|].
      cbn [app] in E'. assert (A : c' = c) by congruence. assert (B : x ++ e = y ++ e') by congruence. subst c'. f_equal. apply IH; [exact B|]. cbn [length] in LX. lia. }
  destruct (longest test_endings s) as [N|(e & x & I & E & M)].
  - exists s. split; [left; auto|]. intros y. apply U. left; auto.
  - exists x. assert (S : stem s x) by (right; exists e; auto). split; [exact S|]. intros y. now apply U.
Qed.
Print Assumptions C54_stem.
Lemma stem_clean cc name x : stem (flat_map (cc_lower cc) name) x -> clean_test_postfix cc name = x.
Proof.
  intros [[E N]|(e & I & E & M)].
  - apply (C54_test_ending cc name x []); [left; split; [intros e' He [y Ey]; exact (N e' y He Ey)|reflexivity]|]. now rewrite app_nil_r.
  - apply (C54_test_ending cc name x e); [right; split; [exact I|exact M]|exact E].
Qed.

(** Two classes of a module get the same path exactly if their names in snake case have the same stem, or if both stems are that of the file, but
    for underscores. *)
Theorem C54_class_paths_exact cc packages file c d x y z :
  (forall c x, In x (cc_lower cc c) -> cc_lower cc x = [x]) -> cc_lower cc USCORE = lit "_" ->
  ~ In DOT file -> Forall (fun p => ~ In DOT p) packages -> let m := concat (map (fun p => p ++ [DOT]) packages) ++ file in
  stem (camel_case_to_snake_case cc c) x -> stem (camel_case_to_snake_case cc d) y -> stem (flat_map (cc_lower cc) file) z ->
  let letters s := filter (fun c => negb (N.eqb c USCORE)) s in
  (class_to_test_path cc m c = class_to_test_path cc m d <-> x = y \/ (letters x = letters z /\ letters y = letters z)).
Proof.
  intros HL HU NF NP m SX SY SZ letters.
  assert (CL : forall n w, stem (camel_case_to_snake_case cc n) w -> clean_class_name cc n = w).
  { intros n w S. unfold clean_class_name. apply stem_clean. unfold camel_case_to_snake_case in *. pose proof (lower_idem cc HL HU n false) as LI. unfold str_lower in LI. now rewrite LI. }
  pose proof (C54_class_path cc packages file c NF NP) as PC. pose proof (C54_class_path cc packages file d NF NP) as PD. cbv zeta in PC, PD.
  rewrite (CL c x SX), (stem_clean cc file z SZ) in PC. rewrite (CL d y SY), (stem_clean cc file z SZ) in PD. fold (letters x) (letters z) in PC. fold (letters y) (letters z) in PD. fold m in PC, PD.
  destruct PC as [C1 C2], PD as [D1 D2].
  destruct (str_eqb_spec (letters z) (letters x)) as [EX|NX]; destruct (str_eqb_spec (letters z) (letters y)) as [EY|NY].
  - rewrite (C1 EX), (D1 EY). split; [intros _; right; split; now symmetry|reflexivity].
  - rewrite (C1 EX), (D2 NY). split.
    + intros H. exfalso. apply app_inv_head in H. apply (f_equal (@length _)) in H. rewrite !app_length in H. cbn [length] in H. unfold str, char in *. lia.
    + intros [->|[_ H]]; [contradiction|]. now symmetry in H.
  - rewrite (C2 NX), (D1 EY). split.
    + intros H. exfalso. apply app_inv_head in H. apply (f_equal (@length _)) in H. rewrite !app_length in H. cbn [length] in H. unfold str, char in *. lia.
    + intros [->|[H _]]; [contradiction|]. now symmetry in H.
  - rewrite (C2 NX), (D2 NY). split.
    + intros H. left. now do 3 apply app_inv_head in H.
    + intros [->|[H _]]; [reflexivity|]. now symmetry in H.
Qed.
Print Assumptions C54_class_paths_exact.

Lemma demo_stem s x e : In e test_endings -> s = x ++ e -> (forall e', In e' test_endings -> length e < length e' -> ends_with e' s = false) -> stem s x.
Proof.
  intros I E M. right. exists e. split; [exact I|]. split; [exact E|]. intros e' y J X. destruct (le_lt_dec (length e') (length e)) as [L|L]; [exact L|].
  assert (T : ends_with e' s = true) by (apply ends_with_iff; eauto). rewrite (M e' J L) in T. discriminate.
Qed.
(** FooBarTest and FoobarBook, with the stems foo_bar and foobar, share a path in foo_bar_test.py and not in another file *)
Example C54_exact_example :
  stem (camel_case_to_snake_case ascii_class (lit "FooBarTest")) (lit "foo_bar") /\ stem (camel_case_to_snake_case ascii_class (lit "FoobarBook")) (lit "foobar") /\
  stem (flat_map (cc_lower ascii_class) (lit "foo_bar_test")) (lit "foo_bar") /\
  class_to_test_path ascii_class (lit "test.foo_bar_test") (lit "FooBarTest") = class_to_test_path ascii_class (lit "test.foo_bar_test") (lit "FoobarBook") /\
  class_to_test_path ascii_class (lit "test.all") (lit "FooBarTest") <> class_to_test_path ascii_class (lit "test.all") (lit "FoobarBook").
Proof.
  assert (D : forall s x e, In e test_endings -> s = x ++ e -> forallb (fun e' => negb (Nat.ltb (length e) (length e') && ends_with e' s)) test_endings = true -> stem s x).
  { intros s x e I E F. apply (demo_stem s x e I E). intros e' J L. rewrite forallb_forall in F. specialize (F e' J). apply Nat.ltb_lt in L. rewrite L in F. now destruct (ends_with e' s). }
  split; [apply (D _ _ (lit "_test")); [unfold test_endings; cbn [In]; tauto|vm_compute; reflexivity..]|].
  split; [apply (D _ _ (lit "_book")); [unfold test_endings; cbn [In]; tauto|vm_compute; reflexivity..]|].
  split; [apply (D _ _ (lit "_test")); [unfold test_endings; cbn [In]; tauto|vm_compute; reflexivity..]|].
  split; [vm_compute; reflexivity|vm_compute; discriminate].
Qed.
