(** C108: the directory commands act on the directory that is meant. *)
From Verif Require Import PyStrFacts FsModel FsFacts ShellModel.
From Coq Require Import Lia.

(** the directory [d] is [p] or above it *)
Definition leads_to (d p : str) : Prop := d <> [] /\ ends_with [SLASH] d = false /\ (p = d \/ exists r, p = d ++ SLASH :: r).
(** [p] is the path [d] or lies below it *)
Definition within (d p : str) : Prop := p = d \/ exists r, p = d ++ SLASH :: r.
(** a path that the shell takes as one word and the command as no option *)
Definition plain_path (p : str) : Prop := p <> [] /\ Forall (fun c => literal c = true) p /\ starts_with (lit "-") p = false.

Lemma above_end_in d pre : In d (above_end pre) <-> d = rev pre /\ d <> [] /\ ends_with [SLASH] d = false.
Proof.
  assert (EW : forall c q, ends_with [SLASH] (rev (c :: q)) = N.eqb c SLASH).
  { intros c q. cbn [rev]. destruct (N.eqb_spec c SLASH) as [->|N].
    - apply ends_with_iff. eauto.
    - destruct (ends_with [SLASH] (rev q ++ [c])) eqn:E; [|reflexivity]. apply ends_with_iff in E as [r E]. apply app_inj_tail in E as [_ E]. congruence. }
  destruct pre as [|c q]; cbn [above_end].
  - split; [intros []|]. intros (-> & N & _). now elim N.
  - destruct (N.eqb c SLASH) eqn:C.
    + split; [intros []|]. intros (-> & _ & F). rewrite EW in F. congruence.
    + split.
      * intros [<-|[]]. split; [reflexivity|]. split; [cbn [rev]; now destruct (rev q)|]. now rewrite EW.
      * intros (-> & _). now left.
Qed.
Lemma above_from_in d : forall s pre, In d (above_from pre s) <->
  d <> [] /\ ends_with [SLASH] d = false /\ exists s1 s2, s = s1 ++ s2 /\ d = rev pre ++ s1 /\ (s2 = [] \/ exists r, s2 = SLASH :: r).
Proof.
  induction s as [|c s IH]; intros pre; cbn [above_from].
  - rewrite above_end_in. split.
    + intros (-> & A & B). split; [exact A|]. split; [exact B|]. exists [], []. rewrite (app_nil_r (rev pre)). auto.
    + intros (A & B & s1 & s2 & E & D & _). symmetry in E. apply app_eq_nil in E as [-> _]. rewrite app_nil_r in D. auto.
  - assert (IN : In d (above_from (c :: pre) s) <-> d <> [] /\ ends_with [SLASH] d = false /\ exists s1 s2, s = s1 ++ s2 /\ d = rev pre ++ c :: s1 /\ (s2 = [] \/ exists r, s2 = SLASH :: r)).
    { rewrite IH. cbn [rev]. split; intros (A & B & s1 & s2 & E & D & F); (split; [exact A|]; split; [exact B|]; exists s1, s2; split; [exact E|]; split; [|exact F]); rewrite D, <- app_assoc; reflexivity. }
    destruct (N.eqb_spec c SLASH) as [->|N]; [rewrite in_app_iff, above_end_in|]; rewrite IN; split.
    + intros [(-> & A & B)|(A & B & s1 & s2 & -> & D & F)]; (split; [exact A|]; split; [exact B|]).
      * exists [], (SLASH :: s). rewrite (app_nil_r (rev pre)). eauto.
      * exists (SLASH :: s1), s2. auto.
    + intros (A & B & [|y s1] & s2 & E & D & F); [left; rewrite app_nil_r in D; auto|]. right. injection E as <- ->. split; [exact A|]. split; [exact B|]. eauto.
    + intros (A & B & s1 & s2 & -> & D & F). split; [exact A|]. split; [exact B|]. exists (c :: s1), s2. auto.
    + intros (A & B & [|y s1] & s2 & E & D & F); [cbn [app] in E; subst s2; destruct F as [F|[r F]]; [discriminate|congruence]|]. injection E as <- ->. split; [exact A|]. split; [exact B|]. eauto.
Qed.
Lemma above_in d p : In d (above p) <-> leads_to d p.
Proof.
  unfold above, leads_to. rewrite above_from_in. cbn [rev app]. split.
  - intros (A & B & s1 & s2 & -> & -> & [->|[r ->]]); (split; [exact A|]; split; [exact B|]); [left; now rewrite app_nil_r|right; eauto].
  - intros (A & B & [->|[r ->]]); (split; [exact A|]; split; [exact B|]); [exists d, []; rewrite app_nil_r; auto|exists d, (SLASH :: r); eauto].
Qed.

Lemma make_all_spec : forall ps t, let t' := make_all ps t in t_files t' = t_files t /\
  (forall d, In d (t_dirs t) -> In d (t_dirs t')) /\ (forall d, In d (t_dirs t') -> In d (t_dirs t) \/ In d ps) /\
  ((forall d, In d ps -> is_file d (t_files t) = false) -> forall d, In d ps -> In d (t_dirs t')).
Proof.
  induction ps as [|p ps IH]; intros t; cbn [make_all]; cbv zeta.
  - split; [reflexivity|]. split; [auto|]. split; [auto|]. intros _ d [].
  - destruct (is_file p (t_files t)) eqn:F.
    + split; [reflexivity|]. split; [auto|]. split; [auto|]. intros H. exfalso. rewrite (H p) in F by now left. discriminate.
    + set (t1 := {| t_files := t_files t; t_dirs := if str_mem p (t_dirs t) then t_dirs t else p :: t_dirs t |}).
      assert (D1 : forall d, In d (t_dirs t1) <-> In d (t_dirs t) \/ d = p).
      { intros d. cbn [t_dirs t1]. destruct (str_mem p (t_dirs t)) eqn:M.
        - split; [auto|]. intros [I|I]; [exact I|]. subst d. now apply str_mem_In.
        - cbn [In]. split; intros [A|B]; auto. }
      destruct (IH t1) as (A & B & C & E). split; [exact A|]. split; [|split].
      * intros d I. apply B, D1. now left.
      * intros d I. destruct (C d I) as [J|J]; [apply D1 in J as [J|J]; [now left|right; left; now symmetry]|right; now right].
      * intros H d [<-|I]; [apply B, D1; now right|]. apply E; [|exact I]. intros d' I'. apply H. now right.
Qed.

Lemma words_plain : forall p cur, Forall (fun c => blank c = false) p -> cur ++ p <> [] -> sh_words_from cur p = [rev cur ++ p].
Proof.
  induction p as [|c p IH]; intros cur F N; cbn [sh_words_from].
  - rewrite app_nil_r in *. now destruct cur.
  - inversion F as [|? ? C F']; subst. rewrite C, IH; [cbn [rev]; now rewrite <- app_assoc|exact F'|discriminate].
Qed.
Lemma literal_not_blank c : literal c = true -> blank c = false /\ N.eqb c SEMI = false.
Proof.
  intros L. split.
  - unfold blank. destruct (N.eqb_spec c SP) as [->|]; [discriminate|]. destruct (N.eqb_spec c 9) as [->|]; [discriminate|reflexivity].
  - destruct (N.eqb_spec c SEMI) as [->|]; [discriminate|reflexivity].
Qed.
Lemma parse_plain a b p : Forall (fun c => literal c = true) a -> Forall (fun c => literal c = true) b -> a <> [] -> b <> [] ->
  p <> [] -> Forall (fun c => literal c = true) p -> sh_parse (a ++ [SP] ++ b ++ [SP] ++ p) = Some [[a; b; p]].
Proof.
  intros La Lb Na Nb Np Lp. unfold sh_parse.
  assert (OK : forall q, Forall (fun c => literal c = true) q -> forallb (fun c => literal c || blank c || N.eqb c SEMI) q = true).
  { intros q H. apply forallb_forall. intros c I. rewrite Forall_forall in H. now rewrite (H c I). }
  rewrite !forallb_app, (OK a La), (OK b Lb), (OK p Lp). cbn [forallb andb]. replace (literal SP || blank SP || N.eqb SP SEMI) with true by reflexivity. cbn [andb].
  assert (NS : ~ In SEMI (a ++ [SP] ++ b ++ [SP] ++ p)).
  { rewrite !in_app_iff. cbn [In]. rewrite Forall_forall in La, Lb, Lp. intros [I|[[I|[]]|[I|[[I|[]]|I]]]]; try discriminate I;
      [apply La in I|apply Lb in I|apply Lp in I]; apply literal_not_blank in I as [_ I]; discriminate I. }
  rewrite split_on_no_sep by exact NS. cbn [map]. do 2 f_equal. unfold sh_words.
  assert (ST : forall q r cur, Forall (fun c => literal c = true) q -> rev q ++ cur <> [] -> sh_words_from cur (q ++ SP :: r) = (rev cur ++ q) :: sh_words_from [] r).
  { induction q as [|c q IH]; intros r cur Lq N; cbn [app sh_words_from].
    - replace (blank SP) with true by reflexivity. rewrite app_nil_r. destruct cur; [now elim N|reflexivity].
    - inversion Lq as [|? ? C Lq']; subst. rewrite (proj1 (literal_not_blank c C)), IH; [cbn [rev]; now rewrite <- app_assoc|exact Lq'|]. intros E. apply app_eq_nil in E as [_ E]. discriminate. }
  change ([SP] ++ b ++ [SP] ++ p) with (SP :: (b ++ SP :: p)). rewrite (ST a (b ++ SP :: p) [] La) by (rewrite app_nil_r; intros E; apply Na; rewrite <- (rev_involutive a), E; reflexivity). cbn [rev app].
  rewrite (ST b p [] Lb) by (rewrite app_nil_r; intros E; apply Nb; rewrite <- (rev_involutive b), E; reflexivity). cbn [rev app].
  rewrite (words_plain p []); [reflexivity| |now destruct p]. apply Forall_forall. intros c I. rewrite Forall_forall in Lp. exact (proj1 (literal_not_blank c (Lp c I))).
Qed.

Section S.
  Variable oc : list str -> tree -> tree.
  Variable ol : str -> tree -> tree.
  Lemma mkdir_plain p t : plain_path p -> os_system oc ol (lit "mkdir -p " ++ p) t = make_all (above p) t.
  Proof.
    intros (N & L & O). change (lit "mkdir -p " ++ p) with (lit "mkdir" ++ [SP] ++ lit "-p" ++ [SP] ++ p). unfold os_system.
    rewrite parse_plain; [|repeat constructor|repeat constructor|discriminate|discriminate|exact N|exact L].
    cbn [fold_left sh_command]. rewrite !str_eqb_refl. unfold operands_ok. cbn [forallb]. rewrite O. reflexivity.
  Qed.
  Lemma rm_plain p t : plain_path p -> os_system oc ol (lit "rm -rf " ++ p) t = remove_all p t.
  Proof.
    intros (N & L & O). change (lit "rm -rf " ++ p) with (lit "rm" ++ [SP] ++ lit "-rf" ++ [SP] ++ p). unfold os_system.
    rewrite parse_plain; [|repeat constructor|repeat constructor|discriminate|discriminate|exact N|exact L].
    cbn [fold_left sh_command]. rewrite !str_eqb_refl. unfold operands_ok. cbn [forallb]. rewrite O. replace (str_eqb (lit "rm") (lit "mkdir")) with false by reflexivity. reflexivity.
  Qed.
End S.

Lemma within_iff d p : str_eqb d p || below d p = true <-> within d p.
Proof.
  unfold within, below. rewrite orb_true_iff, starts_with_iff. split.
  - intros [E|[r ->]]; [left; symmetry; now apply str_eqb_eq|right; exists r; now rewrite <- app_assoc].
  - intros [->|[r ->]]; [left; apply str_eqb_refl|right; exists r; now rewrite <- app_assoc].
Qed.
Lemma lookup_filter (g : str -> bool) p : forall f : fs, lookup p (filter (fun e => g (fst e)) f) = if g p then lookup p f else None.
Proof.
  induction f as [|[q c] f IH]; cbn [filter lookup fst]; [now destruct (g p)|]. destruct (g q) eqn:G; cbn [lookup]; destruct (str_eqb_spec p q) as [->|]; rewrite ?G; auto.
  rewrite IH, G. reflexivity.
Qed.

(** For directories whose names the shell takes literally, preparing a case makes exactly its two directories and what is above them (if no
    file is in the way), changing no file and no other directory; and preparing a parallel run empties the directory of batches and changes nothing else. *)
Theorem C108_directories_partial oc ol :
  (forall exp_dir out_dir rel t, plain_path (path_join exp_dir rel) -> plain_path (path_join out_dir rel) ->
     let E := path_join exp_dir rel in let O := path_join out_dir rel in let t' := case_dirs oc ol exp_dir out_dir rel t in
     t_files t' = t_files t /\ (forall d, In d (t_dirs t) -> In d (t_dirs t')) /\
     (forall d, In d (t_dirs t') -> In d (t_dirs t) \/ leads_to d E \/ leads_to d O) /\
     ((forall d, leads_to d E \/ leads_to d O -> lookup d (t_files t) = None) -> forall d, leads_to d E \/ leads_to d O -> In d (t_dirs t'))) /\
  (forall out_dir t t', plain_path (path_join out_dir (lit ".batches")) -> prepare_batch_dir oc ol out_dir t = Some t' ->
     let B := path_join out_dir (lit ".batches") in
     (forall p, ~ within B p -> lookup p (t_files t') = lookup p (t_files t) /\ (In p (t_dirs t) -> In p (t_dirs t')) /\ (In p (t_dirs t') -> In p (t_dirs t) \/ leads_to p B)) /\
     ((lookup B (t_files t) <> None \/ In B (t_dirs t)) -> forall p, within B p -> lookup p (t_files t') = None /\ (In p (t_dirs t') -> p = B))).
Proof.
  split.
  - intros exp_dir out_dir rel t PE PO E O t'. unfold t', case_dirs. fold E O. rewrite (mkdir_plain oc ol E t PE), (mkdir_plain oc ol O _ PO).
    destruct (make_all_spec (above E) t) as (F1 & K1 & N1 & M1). destruct (make_all_spec (above O) (make_all (above E) t)) as (F2 & K2 & N2 & M2).
    split; [now rewrite F2, F1|]. split; [auto|]. split.
    + intros d I. apply N2 in I as [I|I]; [apply N1 in I as [I|I]; [now left|right; left; now apply above_in]|right; right; now apply above_in].
    + intros NF d [L|L].
      * apply K2, M1; [|now apply above_in]. intros q I. apply above_in in I. unfold is_file. now rewrite (NF q (or_introl I)).
      * apply M2; [|now apply above_in]. intros q I. apply above_in in I. rewrite F1. unfold is_file. now rewrite (NF q (or_intror I)).
  - intros out_dir t t' PB E B. unfold prepare_batch_dir in E. cbv zeta in E. destruct (length out_dir <? 4); [discriminate|]. fold B in E, PB.
    destruct (is_file B (t_files t) || str_mem B (t_dirs t)) eqn:X.
    + rewrite (rm_plain oc ol B t PB) in E. injection E as <-. destruct (make_all_spec (above B) (remove_all B t)) as (F & K & N & _).
      assert (LK : forall p, lookup p (t_files (make_all (above B) (remove_all B t))) = if str_eqb B p || below B p then None else lookup p (t_files t)).
      { intros p. rewrite F. cbn [remove_all t_files]. rewrite (lookup_filter (fun q => negb (str_eqb B q || below B q))). now destruct (str_eqb B p || below B p). }
      assert (DR : forall p, In p (t_dirs (remove_all B t)) <-> In p (t_dirs t) /\ ~ within B p).
      { intros p. cbn [remove_all t_dirs]. rewrite filter_In, negb_true_iff, <- within_iff. now rewrite not_true_iff_false. }
      split.
      * intros p W. rewrite LK. replace (str_eqb B p || below B p) with false by (symmetry; apply not_true_iff_false; now rewrite within_iff). split; [reflexivity|]. split.
        -- intros I. apply K, DR. auto.
        -- intros I. apply N in I as [I|I]; [left; now apply DR in I|right; now apply above_in].
      * intros _ p W. rewrite LK. replace (str_eqb B p || below B p) with true by (symmetry; now apply within_iff). split; [reflexivity|].
        intros I. apply N in I as [I|I]; [apply DR in I; tauto|]. apply above_in in I as (_ & _ & L). destruct W as [->|[r ->]]; [reflexivity|]. exfalso.
        destruct L as [L|[q L]]; apply (f_equal (@length _)) in L; rewrite ?app_length in L; cbn [length] in L; rewrite ?app_length in L; cbn [length] in L; lia.
    + injection E as <-. split; [intros p _; auto|]. intros [H|H].
      * unfold is_file in X. destruct (lookup B (t_files t)); [discriminate X|now elim H].
      * rewrite (proj2 (str_mem_In B (t_dirs t)) H), orb_true_r in X. discriminate.
Qed.
Print Assumptions C108_directories_partial.

(** With a blank in the path: the directory of a case is not made but another one; and a parallel run deletes a file outside of its directory, and
    leaves the old batches. With a semicolon in the name of a test, any command is run. *)
Theorem C108_directories_refuted :
  (exists t, forall oc ol, let t' := case_dirs oc ol (lit "books") (lit "books/.out") (lit "my tests") t in
     ~ In (lit "books/my tests") (t_dirs t') /\ In (lit "tests") (t_dirs t') /\ ~ In (lit "tests") (t_dirs t)) /\
  (exists t t', (forall oc ol, prepare_batch_dir oc ol (lit "my books/.out") t = Some t') /\
     lookup (lit "my") (t_files t) = Some (lit "notes") /\ lookup (lit "my") (t_files t') = None /\
     lookup (lit "my books/.out/.batches/a/cases.txt") (t_files t') = lookup (lit "my books/.out/.batches/a/cases.txt") (t_files t) /\
     lookup (lit "my books/.out/.batches/a/cases.txt") (t_files t) <> None) /\
  (exists t, forall oc ol, let t' := case_dirs oc ol (lit "books") (lit "books/.out") (lit "a;rm -rf src") t in
     lookup (lit "src/main.py") (t_files t) <> None /\ lookup (lit "src/main.py") (t_files t') = None).
Proof.
  split; [|split].
  - exists {| t_files := []; t_dirs := [lit "books"; lit "books/.out"] |}. intros oc ol. vm_compute. split; [intuition discriminate|]. split; [now auto|intuition discriminate].
  - exists {| t_files := [(lit "my", lit "notes"); (lit "my books/.out/.batches/a/cases.txt", [])]; t_dirs := [lit "my books"; lit "my books/.out"; lit "my books/.out/.batches"; lit "my books/.out/.batches/a"] |}.
    eexists. split; [intros oc ol; vm_compute; reflexivity|]. split; [reflexivity|]. split; [reflexivity|]. split; [reflexivity|]. vm_compute. discriminate.
  - exists {| t_files := [(lit "src/main.py", lit "x")]; t_dirs := [lit "src"; lit "books"] |}. intros oc ol. split; [vm_compute; discriminate|]. vm_compute. reflexivity.
Qed.
Print Assumptions C108_directories_refuted.

Example C108_example : plain_path (lit "books/test/a") /\ plain_path (lit "books/.out/test/a") /\ plain_path (lit "books/.out/.batches") /\
  leads_to (lit "books/test") (lit "books/test/a") /\ above (lit "/w/books/a") = [lit "/w"; lit "/w/books"; lit "/w/books/a"].
Proof.
  assert (PL : forall s, forallb literal s = true -> s <> [] -> starts_with (lit "-") s = false -> plain_path s).
  { intros s F N S. split; [exact N|]. split; [|exact S]. apply Forall_forall. now apply forallb_forall. }
  repeat split; try (apply PL; [reflexivity|discriminate|reflexivity]); try discriminate; try (apply Forall_forall; now apply forallb_forall). right. exists (lit "a"). reflexivity.
Qed.
