(** C49, C50, C60. *)
From Verif Require Import PyStrFacts FsFacts FormatModel FormatProofs.

(** *** C49: index.md contains exactly one link per case, in order, indented by its depth, and the headings
    above a link spell the directory of the case. For every list of names: the text is a list of lines
    whose links, read with the headings above them, are those of the names. *)
Theorem C49_index_structure names : exists doc,
  index_text names = lit "# Books overview:" ++ [NL] ++ flat_map (fun i => line_of i ++ [NL]) doc ++ [NL] /\
  links [] doc = map (fun name => let parts := split_on SLASH name in
                                  (length (removelast parts), removelast parts, last parts [], name ++ lit ".md")) names.
Proof.
  exists (items [] names). split; [|apply links_items]. unfold index_text. rewrite body_render. reflexivity.
Qed.
Print Assumptions C49_index_structure.

(** and for names without line breaks and directories not starting with "[", who reads the text finds just that *)
Theorem C49_index_readable names :
  Forall (fun n => ~ In NL n) names ->
  Forall (fun n => Forall (fun p => starts_with (lit "[") p = false) (removelast (split_on SLASH n))) names ->
  read_lines [] (split_on NL (index_text names)) =
  map (fun name => let parts := split_on SLASH name in
                   (length (removelast parts), removelast parts,
                    lit "[" ++ last parts [] ++ lit "](" ++ name ++ lit ".md" ++ lit ")")) names.
Proof.
  intros F G. destruct (items_ok names [] F G) as [OK1 OK2]. unfold index_text. cbn [app].
  rewrite split_on_app by (now apply no_nl_lit). rewrite body_render, split_render by assumption.
  change (read_lines [] (lit "# Books overview:" :: ?l)) with (read_lines [] l). change (split_on NL [NL]) with [@nil char; @nil char].
  transitivity (read_lines [] (map line_of (items [] names))).
  - generalize (@nil str) at 1 3. generalize (items [] names). intros doc. induction doc as [|i doc IH]; intros stack; [reflexivity|].
    cbn [map app read_lines]. destruct (read_line (line_of i)) as [[d t]|]; [|apply IH]. destruct (starts_with _ t); [f_equal|]; apply IH.
  - rewrite read_doc by assumption. rewrite links_items, map_map. apply map_ext. intros n. unfold entry. now rewrite <- app_assoc.
Qed.
Print Assumptions C49_index_readable.

Definition c49_names := [lit "a/b/x"; lit "a/c/y"; lit "a/z"; lit "top"; lit "a/z2"].
Example C49_example :
  index_text c49_names = lit "# Books overview:

 * a
     * b
         * [x](a/b/x.md)

     * c
         * [y](a/c/y.md)

     * [z](a/z.md)

 * [top](top.md)

 * a
     * [z2](a/z2.md)

" /\ read_lines [] (split_on NL (index_text c49_names)) =
  [(2, [lit "a"; lit "b"], lit "[x](a/b/x.md)"); (2, [lit "a"; lit "c"], lit "[y](a/c/y.md)");
   (1, [lit "a"], lit "[z](a/z.md)"); (0, [], lit "[top](top.md)"); (1, [lit "a"], lit "[z2](a/z2.md)")].
Proof. vm_compute. split; reflexivity. Qed.
Example C49_example_hypotheses : Forall (fun n => ~ In NL n) c49_names /\
  Forall (fun n => Forall (fun p => starts_with (lit "[") p = false) (removelast (split_on SLASH n))) c49_names.
Proof. split; [repeat (constructor; [now apply no_nl_lit|]); constructor|]. vm_compute. repeat constructor. Qed.

(** *** C50: --clean removes exactly what --garbage lists, and that is every file below the root except the index,
    the .md files of the cases and the files in the directories of cases. *)
Theorem C50_clean root names f p :
  root <> [] -> ends_with [SLASH] root = false ->
  Forall (fun n => n <> [] /\ starts_with [SLASH] n = false) names ->
  (In p (garbage root names f) <->
     (exists c, lookup p f = Some c) /\ (exists r, p = root ++ [SLASH] ++ r) /\
     p <> root ++ [SLASH] ++ lit "index.md" /\
     forall n, In n names -> p <> root ++ [SLASH] ++ n ++ lit ".md" /\ ~ exists r, p = root ++ [SLASH] ++ n ++ [SLASH] ++ r) /\
  (In p (garbage root names f) -> lookup p (clean root names f) = None) /\
  (~ In p (garbage root names f) -> lookup p (clean root names f) = lookup p f).
Proof.
  intros HR HE HN. split; [|split].
  - rewrite garbage_iff by assumption. rewrite below_iff. split.
    + intros (L & B & NI & NN). do 3 (split; [assumption|]). intros n I. destruct (NN n I) as [N1 N2]. split; [assumption|].
      intros [r ->]. rewrite <- Bool.not_true_iff_false in N2. apply N2. apply below_iff. exists r. now rewrite <- app_assoc.
    + intros (L & B & NI & NN). do 3 (split; [assumption|]). intros n I. destruct (NN n I) as [N1 N2]. split; [assumption|].
      apply Bool.not_true_is_false. intros BT. apply N2. apply below_iff in BT. destruct BT as [r ->]. exists r. now rewrite <- app_assoc.
  - intros I. rewrite clean_lookup. apply str_mem_In in I. now rewrite I.
  - intros I. rewrite clean_lookup. apply str_mem_not_In in I. now rewrite I.
Qed.
Print Assumptions C50_clean.

Definition c50_fs : fs :=
  [(lit "books/index.md", []); (lit "books/a/x.md", []); (lit "books/a/x/img.png", []); (lit "books/a/xx.md", []);
   (lit "books/.out/a/x.md", []); (lit "other/a.md", [])].
Example C50_example :
  garbage (lit "books") [lit "a/x"] c50_fs = [lit "books/a/xx.md"; lit "books/.out/a/x.md"] /\
  map fst (clean (lit "books") [lit "a/x"] c50_fs) =
    [lit "books/index.md"; lit "books/a/x.md"; lit "books/a/x/img.png"; lit "other/a.md"] /\
  lit "books" <> [] /\ ends_with [SLASH] (lit "books") = false /\
  Forall (fun n => n <> [] /\ starts_with [SLASH] n = false) [lit "a/x"].
Proof. vm_compute. repeat split; try discriminate. repeat constructor. discriminate. Qed.

(** *** C60: for a file below the output directory rel_path gives the path relative to it; None for files elsewhere. *)
(** False: a file in a sibling directory whose name starts with that of the output directory gets a path
    (and a wrong one). *)
Theorem C60_refuted : exists cwd out file r,
  abspath cwd out = out /\ abspath cwd file = file /\
  (~ exists r', file = out ++ [SLASH] ++ r') /\ file <> out /\ rel_path cwd out file = Some r.
Proof.
  exists (lit "/home"), (lit "/home/.out"), (lit "/home/.outer/f.png"), (lit "r/f.png"). vm_compute.
  repeat split; try discriminate. intros [r' E]. discriminate.
Qed.
Print Assumptions C60_refuted.

(** True: the relative path when the file is below, in particular for every file named below the output
    directory; and None exactly when the absolute path does not start with the text of that of the directory. *)
Theorem C60_partial cwd out : starts_with [SLASH] cwd = true ->
  (forall file r, abspath cwd file = abspath cwd out ++ [SLASH] ++ r -> rel_path cwd out file = Some r) /\
  (forall ns, ns <> [] -> Forall (fun p => p <> [] /\ p <> lit "." /\ p <> lit ".." /\ ~ In SLASH p) ns ->
     abspath cwd out <> lit "/" -> abspath cwd out <> lit "//" ->
     abspath cwd (path_join out (join_with [SLASH] ns)) = abspath cwd out ++ [SLASH] ++ join_with [SLASH] ns /\
     rel_path cwd out (path_join out (join_with [SLASH] ns)) = Some (join_with [SLASH] ns)) /\
  (forall file, rel_path cwd out file = None <-> ~ exists r, abspath cwd file = abspath cwd out ++ r).
Proof.
  intros HC. split; [|split].
  - intros file r. apply rel_path_below.
  - intros ns NN F N1 N2. pose proof (abspath_join cwd out ns HC NN F N1 N2) as E. split; [exact E|]. now apply rel_path_below.
  - intros file. apply rel_path_none.
Qed.
Print Assumptions C60_partial.

(** In terms of where the paths lead, [place]: names from the root, by going through the components of the working directory and
    of the path one by one. A path has exactly one place. For a file below the directory (not the root) rel_path is the names
    from there; for a file elsewhere it is None unless the names, written out, start with the text of those of the directory. *)
Theorem C60_places_partial cwd out file : starts_with [SLASH] cwd = true ->
  Forall (fun p => starts_with (lit "//") p = false) [cwd; out; file] ->
  exists d e, (forall q, place cwd out q <-> q = d) /\ (forall q, place cwd file q <-> q = e) /\
    (forall ns, d <> [] -> ns <> [] -> e = d ++ ns -> rel_path cwd out file = Some (join_with [SLASH] ns)) /\
    (rel_path cwd out file = None <-> ~ exists r, join_with [SLASH] e = join_with [SLASH] d ++ r).
Proof.
  intros HC F. inversion F as [|? ? F1 F0]; subst. inversion F0 as [|? ? F2 F3]; subst. inversion F3 as [|? ? F4 _]; subst.
  destruct (place_total cwd out) as [d D], (place_total cwd file) as [e E]. exists d, e.
  pose proof (place_abspath _ _ _ HC F1 F2 D) as AD. pose proof (place_abspath _ _ _ HC F1 F4 E) as AE.
  assert (NC : cwd <> []) by (intros ->; discriminate).
  assert (U : forall p x y, place cwd p x -> place cwd p y -> x = y).
  { intros p x y X Y. apply place_raw in X, Y; try assumption.
    rewrite <- (leads_norm _ _ _ X [] eq_refl (Forall_nil _)). exact (leads_norm _ _ _ Y [] eq_refl (Forall_nil _)). }
  split; [|split; [|split]].
  - intros q. split; [intros Q; exact (U _ _ _ Q D)|now intros ->].
  - intros q. split; [intros Q; exact (U _ _ _ Q E)|now intros ->].
  - intros ns ND NN EQ. apply rel_path_below. rewrite AD, AE, EQ. rewrite join_app2 by assumption. now rewrite <- !app_assoc.
  - rewrite rel_path_none, AD, AE. cbn [app]. split; intros H [r R]; apply H; exists r; [now rewrite R|congruence].
Qed.
Print Assumptions C60_places_partial.

(** Exactly what rel_path gives for every file and every output directory: the names of the file from the root, written out, without the text
    of those of the directory and without one more character. *)
Theorem C60_exact cwd out file : starts_with [SLASH] cwd = true ->
  Forall (fun p => starts_with (lit "//") p = false) [cwd; out; file] ->
  exists d e, (forall q, place cwd out q <-> q = d) /\ (forall q, place cwd file q <-> q = e) /\
    forall r, rel_path cwd out file = Some r <-> exists s, join_with [SLASH] e = join_with [SLASH] d ++ s /\ r = skipn 1 s.
Proof.
  intros HC F. destruct (C60_places_partial cwd out file HC F) as (d & e & D & E & _ & N). exists d, e. split; [exact D|]. split; [exact E|].
  inversion F as [|? ? F1 F0]; subst. inversion F0 as [|? ? F2 F3]; subst. inversion F3 as [|? ? F4 _]; subst.
  pose proof (place_abspath _ _ _ HC F1 F2 (proj2 (D d) eq_refl)) as AD. pose proof (place_abspath _ _ _ HC F1 F4 (proj2 (E e) eq_refl)) as AE.
  assert (V : forall s, join_with [SLASH] e = join_with [SLASH] d ++ s -> rel_path cwd out file = Some (skipn 1 s)).
  { intros s S. unfold rel_path. rewrite AD, AE, S.
    change ([SLASH] ++ join_with [SLASH] d ++ s) with (([SLASH] ++ join_with [SLASH] d) ++ s).
    rewrite firstn_app, firstn_all, Nat.sub_diag, firstn_O, app_nil_r, str_eqb_refl. f_equal.
    rewrite skipn_app. rewrite (skipn_all2 ([SLASH] ++ join_with [SLASH] d)) by lia. cbn [app]. f_equal. lia. }
  intros r. split.
  - intros R. destruct (starts_with (join_with [SLASH] d) (join_with [SLASH] e)) eqn:P.
    + apply starts_with_iff in P as [s S]. exists s. split; [exact S|]. rewrite (V s S) in R. congruence.
    + exfalso. assert (Z : rel_path cwd out file = None); [|congruence]. apply N. intros [s S].
      assert (starts_with (join_with [SLASH] d) (join_with [SLASH] e) = true) by (apply starts_with_iff; eauto). congruence.
  - intros (s & S & ->). exact (V s S).
Qed.
Print Assumptions C60_exact.

Example C60_places_example :
  Forall (fun p => starts_with (lit "//") p = false) [lit "/work/p"; lit "../../../b/.out/"; lit "/b/./x/../.out/m/f.png"] /\
  place (lit "/work/p") (lit "../../../b/.out/") [lit "b"; lit ".out"] /\
  place (lit "/work/p") (lit "/b/./x/../.out/m/f.png") ([lit "b"; lit ".out"] ++ [lit "m"; lit "f.png"]) /\
  rel_path (lit "/work/p") (lit "../../../b/.out/") (lit "/b/./x/../.out/m/f.png") = Some (lit "m/f.png").
Proof.
  assert (T : forall c p, starts_with [SLASH] c = true -> place c p (norm_parts true (split_on SLASH (if starts_with [SLASH] p then p else path_join c p)) [])).
  { intros c p HC. destruct (place_total c p) as [q Q]. assert (NC : c <> []) by (intros ->; discriminate).
    pose proof (leads_norm _ _ _ (place_raw _ _ _ NC Q) [] eq_refl (Forall_nil _)) as E. unfold raw in E. rewrite E. exact Q. }
  split; [repeat constructor|]. split; [|split; [|reflexivity]].
  - exact (T (lit "/work/p") (lit "../../../b/.out/") eq_refl).
  - exact (T (lit "/work/p") (lit "/b/./x/../.out/m/f.png") eq_refl).
Qed.

Example C60_example :
  starts_with [SLASH] (lit "/work/p") = true /\ abspath (lit "/work/p") (lit "../b//.out/") = lit "/work/b/.out" /\
  rel_path (lit "/work/p") (lit "../b//.out/") (path_join (lit "../b//.out/") (lit "m/x/f.png")) = Some (lit "m/x/f.png") /\
  lit "m/x/f.png" = join_with [SLASH] [lit "m"; lit "x"; lit "f.png"] /\
  rel_path (lit "/work/p") (lit "../b//.out/") (lit "/tmp/f.png") = None /\
  rel_path (lit "/") (lit "/") (lit "/abc") = Some (lit "bc").     (* with the root as output directory *)
Proof. vm_compute. repeat split. Qed.
