(** Small definitions that the theorems about larger ones are stated with, described by themselves. *)
From Verif Require Import PyStrFacts.
From Verif Require Import ReportsModel SuiteModel SelectModel.
From Verif Require ConfigModel ConsoleModel LifeModel.
From Verif Require Import JsonSpec JsonProofs JsonProps.
From Coq Require Import Lia ZArith.

(** ** C26 *)
(** what --review -c leaves out are the tests with a record OK *)
Theorem C26_passed (D : Type) (records : list (case_rec D)) n : In n (passed records) <-> exists d, In (n, OK, d) records.
Proof.
  unfold passed. rewrite in_map_iff. split.
  - intros ([[m r] d] & <- & H). apply filter_In in H as [H X]. cbn in X |- *. destruct r; try discriminate X. eauto.
  - intros [d H]. exists (n, OK, d). split; [reflexivity|]. apply filter_In. now split.
Qed.
Print Assumptions C26_passed.

(** ** C54 *)
Definition test_endings : list str :=
  [lit "test"; lit "_test"; lit "book"; lit "_book"; lit "testbook"; lit "_testbook"; lit "test_book"; lit "_test_book"].
(** the longest of these endings is cut off the name in lower case *)
Theorem C54_test_ending cc name x e :
  let low := flat_map (cc_lower cc) name in
  (forall e', In e' test_endings -> ~ exists y, low = y ++ e') /\ e = [] \/
    In e test_endings /\ (forall e' y, In e' test_endings -> low = y ++ e' -> length e' <= length e) ->
  low = x ++ e -> clean_test_postfix cc name = x.
Proof.
  intros low H EQ. unfold clean_test_postfix. change (str_lower cc name) with low. cbv zeta.
  assert (CUT : forall e y, low = y ++ e -> cut_end e low = y).
  { intros e0 y ->. unfold cut_end. rewrite app_length. replace (length y + length e0 - length e0) with (length y) by lia. rewrite firstn_app, firstn_all, Nat.sub_diag. cbn [firstn]. apply app_nil_r. }
  assert (ENDS : forall e, ends_with e low = true -> exists y, low = y ++ e) by (intros e0; apply ends_with_iff).
  destruct H as [[N ->]|[IN MAX]].
  - rewrite app_nil_r in EQ.
    assert (F : forall e', In e' test_endings -> ends_with e' low = false).
    { intros e' He. destruct (ends_with e' low) eqn:X; [|reflexivity]. elim (N e' He). now apply ENDS. }
    rewrite !F by (unfold test_endings; cbn [In]; tauto). exact EQ.
  - assert (NOT : forall e', In e' test_endings -> (length e' <= length e -> forall a b, rev e' ++ a <> rev e ++ b) -> ends_with e' low = false).
    { intros e' He' X. destruct (ends_with e' low) eqn:Z; [|reflexivity]. destruct (ENDS e' Z) as [y Ey].
      elim (X (MAX e' y He' Ey) (rev y) (rev x)). rewrite <- !rev_app_distr. congruence. }
    assert (YES : ends_with e low = true) by (apply ends_with_iff; eauto).
    assert (ALL : forall e', In e' test_endings -> In e' test_endings) by trivial.
    clearbody low. unfold test_endings in IN; cbn [In] in IN.
    repeat (destruct IN as [IN|IN]; [subst e;
      repeat match goal with
      | |- (if ends_with ?e' low then _ else _) = x =>
          first [ rewrite YES; apply CUT, EQ
                | rewrite (NOT e'); [|unfold test_endings; cbn [In]; tauto|intros L a b; cbn in L |- *; first [lia|discriminate]] ]
      end|]); contradiction IN.
Qed.
Print Assumptions C54_test_ending.
Example C54_endings :
  map (clean_test_postfix ascii_class) [lit "Words_Test_Book"; lit "wordsbook"; lit "words_test"; lit "contest"; lit "words"; lit "test_book"]
  = [lit "words"; lit "words"; lit "words"; lit "con"; lit "words"; []].
Proof. reflexivity. Qed.

(** the path of a class: the packages of its module as directories, then the file and the class,
    once if they only differ by underscores *)
Theorem C54_class_path cc packages file class :
  ~ In DOT file -> Forall (fun p => ~ In DOT p) packages ->
  let f := clean_test_postfix cc file in let c := clean_class_name cc class in
  let same := filter (fun x => negb (N.eqb x USCORE)) f = filter (fun x => negb (N.eqb x USCORE)) c in
  (same -> class_to_test_path cc (concat (map (fun p => p ++ [DOT]) packages) ++ file) class
           = concat (map (fun p => p ++ [SLASH]) packages) ++ f) /\
  (~ same -> class_to_test_path cc (concat (map (fun p => p ++ [DOT]) packages) ++ file) class
           = concat (map (fun p => p ++ [SLASH]) packages) ++ f ++ [SLASH] ++ c).
Proof.
  intros NF NP f c same.
  assert (SP : split_on DOT (concat (map (fun p => p ++ [DOT]) packages) ++ file) = packages ++ [file]).
  { induction NP as [|p ps Hp _ IH]; cbn [map concat app]; [now apply split_on_no_sep|].
    rewrite <- !app_assoc. cbn [app]. rewrite split_on_app by exact Hp. now rewrite IH. }
  assert (JO : forall l x, join_with [SLASH] (l ++ [x]) = concat (map (fun p => p ++ [SLASH]) l) ++ x).
  { induction l as [|p ps IH]; intros x; [reflexivity|]. cbn [map concat app]. rewrite join_cons by (destruct ps; discriminate).
    rewrite IH, <- !app_assoc. reflexivity. }
  assert (CL : forall x, class_to_test_path cc (concat (map (fun p => p ++ [DOT]) packages) ++ file) x =
    join_with [SLASH] (packages ++ [f] ++ if str_eqb (remove_char USCORE f) (remove_char USCORE (clean_class_name cc x)) then [] else [clean_class_name cc x])).
  { intros x. unfold class_to_test_path. rewrite SP, app_length. cbn [length]. rewrite Nat.add_sub. cbv zeta.
    rewrite firstn_app, firstn_all, Nat.sub_diag, app_nth2, Nat.sub_diag by lia. cbn [firstn nth]. now rewrite app_nil_r. }
  rewrite CL. fold c. unfold same.
  destruct (str_eqb_spec (remove_char USCORE f) (remove_char USCORE c)) as [E|E]; (split; intros H; [|]); try contradiction; cbn [app].
  - apply JO.
  - change (packages ++ [f; c]) with (packages ++ [f] ++ [c]). rewrite app_assoc, JO, map_app, concat_app. cbn [map concat]. now rewrite app_nil_r, <- !app_assoc.
Qed.
Print Assumptions C54_class_path.
Example C54_paths :
  class_to_test_path ascii_class (lit "test.sub.words_test") (lit "WordsTestBook") = lit "test/sub/words" /\
  class_to_test_path ascii_class (lit "test.words_test") (lit "OtherTest") = lit "test/words/other".
Proof. split; reflexivity. Qed.

(** ** C66 *)
(** a test book is found below the path of its class, or below the name it is given instead of
    the last part of that path *)
Theorem C66_book_path d last n : ~ In SLASH last ->
  (forall path, book_path path None = path) /\
  book_path (d ++ [SLASH] ++ last) (Some n) = d ++ [SLASH] ++ n /\
  book_path last (Some n) = n.
Proof.
  intros NL. unfold book_path. split; [reflexivity|split].
  - transitivity (join_with [SLASH] (split_on SLASH d) ++ [SLASH] ++ n); [|now rewrite join_split].
    assert (SP : split_on SLASH (d ++ [SLASH] ++ last) = split_on SLASH d ++ [last]).
    { rewrite <- (join_split SLASH d) at 1. pose proof (split_on_parts SLASH d) as P. pose proof (split_on_nonempty SLASH d) as NE.
      induction P as [|p ps Hp P IH]; [easy|]. destruct ps as [|p' ps].
      - cbn [join_with app]. rewrite split_on_app by exact Hp. now rewrite split_on_no_sep.
      - rewrite join_cons by discriminate. rewrite <- !app_assoc. cbn [app]. rewrite split_on_app by exact Hp. f_equal. apply IH. discriminate. }
    rewrite SP, app_length. cbn [length]. rewrite Nat.add_sub, firstn_app, firstn_all, Nat.sub_diag. cbn [firstn]. rewrite app_nil_r. clear SP.
    pose proof (split_on_nonempty SLASH d) as NE. induction (split_on SLASH d) as [|p ps IH]; [easy|]. destruct ps as [|p' ps].
    + reflexivity.
    + change ((p :: p' :: ps) ++ [n]) with (p :: ((p' :: ps) ++ [n])). rewrite (join_cons [SLASH] p ((p' :: ps) ++ [n])), (join_cons [SLASH] p (p' :: ps)) by discriminate. rewrite IH by discriminate. now rewrite <- !app_assoc.
  - rewrite split_on_no_sep by exact NL. reflexivity.
Qed.
Print Assumptions C66_book_path.
Example C66_book : book_path (lit "test/sub/words") (Some (lit "phrases")) = lit "test/sub/phrases".
Proof. reflexivity. Qed.

(** ** C30 *)
(** the function a method stands for when its decorators are taken off *)
Inductive bound_at : meth -> meth -> nat -> Prop :=
| BoundHere f s : bound_at (Bound f s) f s
| BoundInside i m f s : bound_at m f s -> bound_at (Wrap i m) f s.
Theorem C30_bound m s : (attr_self m = Some s <-> exists f, bound_at m f s) /\
  (forall f, method_identity m = (Some s, f) <-> bound_at m f s) /\
  (attr_self m = None -> method_identity m = (None, m)).
Proof.
  assert (X : forall f, bound_at m f s <-> attr_self m = Some s /\ attr_func m = Some f).
  { intros f. induction m as [i|i m IH|m IH s']; cbn [attr_self attr_func].
    - split; [intros H; inversion H|intros [H _]; discriminate H].
    - rewrite <- IH. split; [intros H; now inversion H|now constructor].
    - split; [intros H; inversion H; auto|intros [H H']; injection H as ->; injection H' as ->; constructor]. }
  assert (F : attr_func m = None <-> attr_self m = None).
  { clear X. induction m as [i|i m IH|m IH s']; cbn [attr_self attr_func]; [tauto|exact IH|split; discriminate]. }
  split; [|split].
  - split; [|now intros [f H%X]]. intros H. destruct (attr_func m) as [f|] eqn:Y; [exists f; apply X; auto|]. destruct F as [F _]. rewrite F in H by reflexivity. discriminate H.
  - intros f. rewrite X. unfold method_identity. split.
    + intros H. injection H as H H'. split; [exact H|]. destruct (attr_func m) eqn:Y; [congruence|]. destruct F as [F _]. rewrite F in H by reflexivity. discriminate H.
    + now intros [-> ->].
  - intros H. unfold method_identity. rewrite H. destruct F as [_ F]. now rewrite F.
Qed.
Print Assumptions C30_bound.

(** binding: a bound method keeps its instance, a decorated one too only if it is bound itself *)
Theorem C30_bind m s :
  (forall f t, bind_to (Bound f t) s = Bound f t) /\
  ((forall f t, m <> Bound f t) -> bind_to m s = Bound m s) /\
  (attr_self (bind_to m s) <> None).
Proof.
  split; [reflexivity|split].
  - intros H. destruct m as [i|i m|f t]; [reflexivity|reflexivity|]. now elim (H f t).
  - destruct m; cbn; discriminate.
Qed.
Print Assumptions C30_bind.

(** the attribute _self_type of a dependency is that of the outermost of its functions that has one *)
Inductive inside : meth -> nat -> list nat -> Prop :=   (* [inside m i outer]: [i] is a function of [m], within [outer] *)
| InFn i : inside (Fn i) i []
| InWrap i m : inside (Wrap i m) i []
| InWrapped i m j l : inside m j l -> inside (Wrap i m) j (i :: l)
| InBound m s j l : inside m j l -> inside (Bound m s) j l.
Theorem C30_self_type o m t : attr_self_type o m = Some t <->
  exists i outer, inside m i outer /\ o_self_type o i = Some t /\ forall j, In j outer -> o_self_type o j = None.
Proof.
  induction m as [i|i m IH|m IH s]; cbn [attr_self_type].
  - split.
    + intros H. exists i, []. split; [constructor|]. split; [exact H|intros j []].
    + intros (j & l & H & X & _). now inversion H; subst.
  - destruct (o_self_type o i) as [t'|] eqn:E.
    + split.
      * intros H. exists i, []. split; [constructor|]. split; [congruence|intros j []].
      * intros (j & l & H & X & Y). inversion H; subst; [congruence|]. rewrite Y in E by now left. discriminate E.
    + rewrite IH. split.
      * intros (j & l & H & X & Y). exists j, (i :: l). split; [now constructor|]. split; [exact X|]. intros k [<-|K]; auto.
      * intros (j & l & H & X & Y). inversion H; subst; [congruence|]. eexists j, _. split; [eassumption|]. split; [exact X|]. intros k K. apply Y. now right.
  - rewrite IH. split; intros (j & l & H & X); exists j, l; (split; [|exact X]); [now constructor|now inversion H].
Qed.
Print Assumptions C30_self_type.
(** a test of the instance 4 that depends on a decorated method of its class, which is 9 *)
Example C30_dependency :
  let o := {| o_deps := fun _ => []; o_resources := fun _ => []; o_self_type := fun i => if Nat.eqb i 1 then Some 9 else None;
              o_isinstance := fun s t => Nat.eqb s 4 && Nat.eqb t 9 |} in
  let dep := Wrap 2 (Fn 1) in let m := Wrap 3 (Bound (Fn 0) 4) in
  attr_self m = Some 4 /\ attr_self_type o dep = Some 9 /\ bind_dependent o m dep = Bound dep 4 /\
  bind_dependent o m (Bound (Fn 1) 5) = Bound (Fn 1) 5.
Proof. repeat split. Qed.

(** ** C52 *)
(** what --setup asks for, in this order, and what it proposes when nothing is configured *)
Theorem C52_asked : map (fun k => (k, ConfigModel.config_defaults k)) ConfigModel.setup_keys =
  [(lit "diff_tool", lit "meld"); (lit "fast_diff_tool", lit "diff"); (lit "md_viewer", lit "retext --preview");
   (lit "log_viewer", lit "less"); (lit "test_paths", lit "test,book,run"); (lit "default_tests", lit "test,book");
   (lit "books_path", lit "books")].
Proof. reflexivity. Qed.
Print Assumptions C52_asked.

(** ** C98 *)
(** a setting counts as off only if it is missing, False, empty or the number 0; "0" and "False" in
    a configuration file count as on *)
Theorem C98_setting_on c k :
  (match ConfigModel.dget k c with Some v => ConfigModel.truthy v | None => false end) = false <->
  ConfigModel.dget k c = None \/ ConfigModel.dget k c = Some (ConfigModel.VBool false) \/
  ConfigModel.dget k c = Some (ConfigModel.VStr []) \/ ConfigModel.dget k c = Some (ConfigModel.VInt 0).
Proof.
  destruct (ConfigModel.dget k c) as [[b|s|n]|]; cbn [ConfigModel.truthy].
  - destruct b; split; [discriminate|intros [H|[H|[H|H]]]; discriminate H|auto|auto].
  - destruct s; split; auto; try discriminate. intros [H|[H|[H|H]]]; discriminate H.
  - destruct n; split; auto; try discriminate. intros [H|[H|[H|H]]]; discriminate H.
  - tauto.
Qed.
Print Assumptions C98_setting_on.

(** ** C56 *)
(** without a setup of its own, the worker just runs *)
Theorem C56_no_setup (W X : Type) (run : W -> W * (nat + X)) w :
  LifeModel.run_batch W X None run w = (fst (run w), match snd (run w) with inl code => Some code | inr _ => None end).
Proof. unfold LifeModel.run_batch. cbn. now destruct (run w) as [w1 [code|e]]. Qed.
Print Assumptions C56_no_setup.

(** ** C85 *)
(** metrics.json is the JSON of a dictionary with the milliseconds under "tookMs", and json.load gives it back *)
Theorem C85_metrics refloat (ms : N) :
  let written := JDict [(JKStr (lit "tookMs"), JInt (Z.of_N ms))] in
  dumps None 0 written = Some (ConsoleModel.metrics_json (show_N ms)) /\
  loads refloat (ConsoleModel.metrics_json (show_N ms)) = Some written.
Proof.
  intros written. assert (D : dumps None 0 written = Some (ConsoleModel.metrics_json (show_N ms))).
  { unfold written. cbn [dumps map snd fst key_str all_of option_map]. f_equal. unfold ConsoleModel.metrics_json, enclose, show_Z.
    destruct ms; reflexivity. }
  split; [exact D|]. rewrite (loads_dumps refloat _ None _) with (2 := D); [reflexivity|].
  cbn [value_ok fold_right fst snd key_ok]. split; [|exact I]. split; [lit_text|exact I].
Qed.
Print Assumptions C85_metrics.
(** so C85 holds of the file a run leaves behind, with json.load in place of its [read_took] *)
Definition read_ms refloat (t : str) : option str :=
  match loads refloat t with Some (JDict [(JKStr k, JInt z)]) => if str_eqb k (lit "tookMs") then Some (show_Z z) else None | _ => None end.
Theorem C85_took refloat ms : read_ms refloat (ConsoleModel.metrics_json (show_N ms)) = Some (show_N ms).
Proof. unfold read_ms. rewrite (proj2 (C85_metrics refloat ms)). destruct ms; reflexivity. Qed.
Print Assumptions C85_took.
