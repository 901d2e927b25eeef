(** Proofs about whole runs on the file system. *)
From Verif Require Export RunCaseSpec ReviewProofs CaseRunProofs.
From Coq Require Import Lia.

(** ** Paths *)
Lemma join_cons (p q : list char) (ps : list (list char)) : join_with [SLASH] (p :: q :: ps) = p ++ SLASH :: join_with [SLASH] (q :: ps).
Proof. reflexivity. Qed.

Lemma proper_split n : proper n -> exists rel local, local <> [] /\ ~ In SLASH local /\
  (rel = [] /\ n = local \/ rel <> [] /\ starts_with [SLASH] rel = false /\ ends_with [SLASH] rel = false /\ n = rel ++ SLASH :: local).
Proof.
  intros (parts & HN & HF & ->). induction parts as [|p [|q ps] IH]; [easy| |].
  - inversion HF as [|? ? [H1 H2] _]; subst. exists [], p. cbn [join_with]. auto.
  - inversion HF as [|? ? [H1 H2] HF']; subst. destruct (IH ltac:(discriminate) HF') as (rel & local & L1 & L2 & IHs).
    exists (match rel with [] => p | _ => p ++ SLASH :: rel end), local. split; [exact L1|]. split; [exact L2|]. right.
    assert (S1 : forall y, starts_with [SLASH] (p ++ y) = false).
    { intros y. destruct (starts_with [SLASH] (p ++ y)) eqn:Hs; [|reflexivity]. apply starts_with_iff in Hs as [r Hs]. destruct p as [|c p]; [easy|].
      cbn [app] in Hs. injection Hs as Hs _. exfalso. apply H2. now left. }
    assert (S2 : ends_with [SLASH] p = false).
    { destruct (ends_with _ p) eqn:Hs; [|reflexivity]. apply ends_with_iff in Hs as [r Hs]. exfalso. apply H2. rewrite Hs. apply in_or_app. right. now left. }
    rewrite join_cons. destruct IHs as [[-> E]|(R1 & R2 & R3 & E)]; rewrite E.
    + split; [exact H1|]. split; [|split; [exact S2|reflexivity]]. rewrite <- (app_nil_r p). apply S1.
    + destruct rel as [|c rel]; [easy|]. split; [destruct p; discriminate|]. split; [apply S1|]. split; [|now rewrite <- app_assoc].
      destruct (ends_with _ (p ++ _)) eqn:Hs; [|reflexivity]. apply ends_with_iff in Hs as [r Hs].
      destruct (exists_last (l := c :: rel) ltac:(discriminate)) as (rel' & z & Ez). rewrite Ez in *.
      replace (p ++ SLASH :: rel' ++ [z]) with ((p ++ SLASH :: rel') ++ [z]) in Hs by (now rewrite <- app_assoc).
      apply app_inj_tail in Hs as [_ ->]. assert (ends_with [SLASH] (rel' ++ [SLASH]) = true) by (apply ends_with_iff; eauto). congruence.
Qed.

Lemma split_rel rel local : local <> [] -> ~ In SLASH local -> ends_with [SLASH] rel = false -> rel <> [] ->
  path_split (rel ++ SLASH :: local) = (rel, local).
Proof.
  intros H1 H2 H3 H4. unfold path_split. rewrite rev_app_distr. cbn [rev]. rewrite <- app_assoc.
  rewrite (span_unique _ (rev local)).
  - destruct (exists_last H4) as (rel' & z & Ez).
    assert (Z : N.eqb SLASH z = false).
    { apply N.eqb_neq. intros <-. rewrite Ez in H3. assert (ends_with [SLASH] (rel' ++ [SLASH]) = true) by (apply ends_with_iff; eauto). congruence. }
    subst rel. rewrite rev_app_distr. cbn [rev app]. unfold lstrip. cbn [span]. rewrite N.eqb_refl. cbn [span]. rewrite Z. cbn [snd].
    rewrite rev_involutive. f_equal. cbn [rev]. now rewrite rev_involutive.
  - apply Forall_forall. intros c Hc. apply negb_true_iff, N.eqb_neq. intros ->. apply H2. now apply in_rev.
  - cbn. reflexivity.
Qed.
Lemma split_local local : ~ In SLASH local -> path_split local = ([], local).
Proof.
  intros H2. unfold path_split. rewrite <- (app_nil_r (rev local)).
  rewrite (span_unique _ (rev local) []).
  - cbn. now rewrite rev_involutive.
  - apply Forall_forall. intros c Hc. apply negb_true_iff, N.eqb_neq. intros ->. apply H2. now apply in_rev.
  - exact I.
Qed.

Lemma no_slash_start (l x : str) : l <> [] -> ~ In SLASH l -> starts_with [SLASH] (l ++ x) = false.
Proof.
  intros H1 H2. destruct (starts_with _ _) eqn:Hs; [|reflexivity]. apply starts_with_iff in Hs as [r Hs]. destruct l as [|c l]; [easy|].
  cbn [app] in Hs. injection Hs as Hs _. exfalso. apply H2. now left.
Qed.

Lemma plain_dir_join d rel : plain_dir d -> rel <> [] -> ends_with [SLASH] rel = false -> plain_dir (d ++ SLASH :: rel).
Proof.
  intros [H1 H2] H3 H4. split; [destruct d; discriminate|]. destruct (ends_with _ (d ++ _)) eqn:Hs; [|reflexivity]. apply ends_with_iff in Hs as [r Hs].
  destruct (exists_last H3) as (rel' & z & Ez). subst rel. replace (d ++ SLASH :: rel' ++ [z]) with ((d ++ SLASH :: rel') ++ [z]) in Hs by (now rewrite <- app_assoc).
  apply app_inj_tail in Hs as [_ ->]. assert (ends_with [SLASH] (rel' ++ [SLASH]) = true) by (apply ends_with_iff; eauto). congruence.
Qed.

Lemma proper_nonempty n : proper n -> n <> [].
Proof. intros P. destruct (proper_split n P) as (rel & l & H1 & H2 & [[-> ->]|(_ & _ & _ & ->)]); [exact H1|now destruct rel]. Qed.
Lemma proper_start n : proper n -> starts_with [SLASH] n = false.
Proof.
  intros P. destruct (proper_split n P) as (rel & l & H1 & H2 & [[-> ->]|(R & S & _ & ->)]); [rewrite <- (app_nil_r l); now apply no_slash_start|].
  destruct rel; [easy|exact S].
Qed.
Lemma proper_plain n : proper n -> plain n.
Proof.
  intros P. split; [now apply proper_nonempty|]. split; [now apply proper_start|].
  destruct (proper_split n P) as (rel & l & H1 & H2 & [[-> ->]|(R & S & _ & ->)]); (destruct (ends_with _ _) eqn:Hs; [|reflexivity]); apply ends_with_iff in Hs as [r Hs].
  - exfalso. apply H2. rewrite Hs. apply in_or_app. right. now left.
  - destruct (exists_last H1) as (l' & z & ->). replace (rel ++ SLASH :: l' ++ [z]) with ((rel ++ SLASH :: l') ++ [z]) in Hs by (now rewrite <- app_assoc).
    apply app_inj_tail in Hs as [_ ->]. exfalso. apply H2. apply in_or_app. right. now left.
Qed.

(** the paths of a case *)
Lemma case_path_eq root n x : plain_dir root -> proper n -> case_path root n x = root ++ SLASH :: n ++ x.
Proof.
  intros D P. unfold case_path, base_dir. destruct (proper_split n P) as (rel & l & H1 & H2 & [[-> ->]|(R & S & T & ->)]).
  - rewrite split_local by exact H2. cbn [fst snd]. destruct D as [D1 D2].
    assert (path_join root [] = root ++ [SLASH]) as ->.
    { unfold path_join. cbn [starts_with]. destruct root; [easy|]. now rewrite D2. }
    unfold path_join. rewrite no_slash_start by auto. destruct root as [|c root]; [easy|]. cbn [app].
    assert (ends_with [SLASH] (c :: root ++ [SLASH]) = true) as -> by (apply ends_with_iff; now exists (c :: root)).
    now rewrite <- app_assoc.
  - rewrite split_rel by auto. cbn [fst snd]. rewrite (path_join_plain root rel) by (apply D || exact S).
    destruct (plain_dir_join root rel D R T) as [J1 J2]. rewrite path_join_plain; auto; [|now apply no_slash_start]. now rewrite <- !app_assoc.
Qed.

Lemma base_freeze E O n f : plain_dir E -> plain_dir O -> proper n ->
  freeze_case (base_dir E n) (base_dir O n) (snd (path_split n)) f = freeze_case E O n f.
Proof.
  intros HE HO P. unfold freeze_case.
  pose proof (case_path_eq E n [] HE P) as E1. pose proof (case_path_eq E n (lit ".md") HE P) as E2.
  pose proof (case_path_eq O n [] HO P) as E3. pose proof (case_path_eq O n (lit ".md") HO P) as E4.
  unfold case_path in *. rewrite app_nil_r in E1, E3. rewrite E1, E2, E3, E4.
  destruct (plain_join E n HE (proper_plain n P)) as [-> ->]. destruct (plain_join O n HO (proper_plain n P)) as [-> ->]. rewrite !app_nil_r. reflexivity.
Qed.
Lemma base_review E O n res c answers f : plain_dir E -> plain_dir O -> proper n ->
  case_review (base_dir E n) (base_dir O n) (snd (path_split n)) res c answers f = case_review E O n res c answers f.
Proof. intros HE HO P. unfold case_review. now rewrite base_freeze. Qed.

Lemma below_root root x y : below (root ++ x) (root ++ y) = below x y.
Proof.
  destruct (below x y) eqn:H.
  - apply below_iff in H as [r ->]. apply below_iff. exists r. now rewrite <- app_assoc.
  - destruct (below (root ++ x) (root ++ y)) eqn:H2; [|reflexivity]. apply below_iff in H2 as [r H2]. rewrite <- app_assoc in H2. apply app_inv_head in H2. subst y.
    assert (below x (x ++ SLASH :: r) = true) by (apply below_iff; eauto). congruence.
Qed.
Lemma eqb_root (root x y : str) : str_eqb (root ++ x) (root ++ y) = str_eqb x y.
Proof.
  destruct (str_eqb_spec x y) as [<-|H]; [apply str_eqb_refl|]. apply str_eqb_neq. intros H2. apply app_inv_head in H2. contradiction.
Qed.
(** two files of one case *)
Lemma at_case (root n x : str) : root ++ SLASH :: n ++ x = (root ++ SLASH :: n) ++ x.
Proof. now rewrite <- app_assoc. Qed.
Lemma in_case (root n x y : str) : (root ++ SLASH :: n ++ x) ++ y = root ++ SLASH :: n ++ x ++ y.
Proof. rewrite at_case, <- app_assoc. symmetry. apply at_case. Qed.
Lemma below_case root n x y : below (root ++ SLASH :: n ++ x) (root ++ SLASH :: n ++ y) = below x y.
Proof. rewrite !at_case. apply below_root. Qed.
Lemma eqb_case root n x y : str_eqb (root ++ SLASH :: n ++ x) (root ++ SLASH :: n ++ y) = str_eqb x y.
Proof. rewrite !at_case. apply eqb_root. Qed.

Lemma prefix_app (a b : str) : path_prefix a b <-> b = a \/ below a b = true.
Proof. unfold path_prefix. now rewrite below_iff. Qed.

Lemma is_dir_ext d f g : (forall p, below d p = true -> lookup p f = lookup p g) -> is_dir d f = is_dir d g.
Proof.
  intros H. destruct (is_dir d f) eqn:A; symmetry.
  - apply is_dir_iff in A as (p & t & L & B). apply is_dir_iff. exists p, t. rewrite <- H; auto.
  - destruct (is_dir d g) eqn:B; [|reflexivity]. apply is_dir_iff in B as (p & t & L & B). rewrite <- H in L by auto. rewrite (is_dir_false _ _ _ A B) in L. discriminate.
Qed.

(** operations on lookups *)
Lemma lookup_purged d f p : lookup p (filter (fun e => negb (below d (fst e))) f) = if below d p then None else lookup p f.
Proof. rewrite (lookup_filter p (fun x => negb (below d x))). now destruct (below d p). Qed.
Lemma purge_ok d f : lookup d f = None -> exists f', purge d f = Ret tt f' /\ forall p, lookup p f' = if below d p then None else lookup p f.
Proof.
  intros L. unfold purge, path_exists, is_file. rewrite L. cbn [orb]. unfold rmtree. destruct (is_dir d f) eqn:D.
  - eexists. split; [reflexivity|]. intros p. apply lookup_purged.
  - exists f. split; [reflexivity|]. intros p. destruct (below d p) eqn:B; [|reflexivity]. apply (is_dir_false _ _ _ D B).
Qed.
Lemma lookup_write_below d files : forall f p, lookup p (write_below d files f) =
  match (if below d p then lookup (skipn (S (length d)) p) (rev files) else None) with Some t => Some t | None => lookup p f end.
Proof.
  unfold write_below. induction files as [|[r t] files IH] using rev_ind; intros f p.
  - cbn. now destruct (below d p).
  - rewrite fold_left_app, rev_app_distr. cbn [fold_left rev app fst snd]. rewrite lookup_write, IH. cbn [lookup].
    destruct (below d p) eqn:B.
    + apply below_iff in B as [q ->]. replace (skipn (S (length d)) (d ++ SLASH :: q)) with q.
      2: { change (d ++ SLASH :: q) with (d ++ [SLASH] ++ q). rewrite app_assoc. rewrite skipn_app. rewrite skipn_all2; rewrite app_length; cbn [length]; [|lia].
           replace (S (length d) - (length d + 1)) with 0 by lia. reflexivity. }
      change (SLASH :: r) with ([SLASH] ++ r). change (SLASH :: q) with ([SLASH] ++ q). rewrite !eqb_root, (str_eqb_sym q r). now destruct (str_eqb r q).
    + destruct (str_eqb_spec (d ++ SLASH :: r) p) as [<-|_]; [|reflexivity].
      assert (below d (d ++ SLASH :: r) = true) by (apply below_iff; eauto). congruence.
Qed.
Lemma lookup_write_below_in d files f r : lookup (d ++ SLASH :: r) (write_below d files f) =
  match last_write r files with Some t => Some t | None => lookup (d ++ SLASH :: r) f end.
Proof.
  rewrite lookup_write_below. assert (below d (d ++ SLASH :: r) = true) as -> by (apply below_iff; eauto).
  replace (skipn (S (length d)) (d ++ SLASH :: r)) with r; [reflexivity|].
  change (d ++ SLASH :: r) with (d ++ [SLASH] ++ r). rewrite app_assoc. rewrite skipn_app. rewrite skipn_all2; rewrite app_length; cbn [length]; [|lia].
  replace (S (length d) - (length d + 1)) with 0 by lia. reflexivity.
Qed.
Lemma lookup_write_below_out d files f p : below d p = false -> lookup p (write_below d files f) = lookup p f.
Proof. intros H. now rewrite lookup_write_below, H. Qed.

(** ** The files of different cases do not meet *)
Lemma ext_start x : In x case_exts -> x = [] \/ exists x', x = DOT :: x'.
Proof. intros [<-|[<-|[<-|[<-|[<-|[<-|[]]]]]]]; [now left|..]; right; eexists; reflexivity. Qed.

Lemma prefix_split (a p : str) : path_prefix a p -> exists t, (t = [] \/ exists r, t = SLASH :: r) /\ p = a ++ t.
Proof. intros [->|[r ->]]; [exists []; rewrite app_nil_r; auto|exists (SLASH :: r); eauto]. Qed.

Lemma names_meet (n l x y t t' : str) : ~ In DOT l -> (x = [] \/ exists x', x = DOT :: x') -> (t = [] \/ exists r, t = SLASH :: r) ->
  x ++ t = l ++ y ++ t' -> path_prefix n (n ++ l).
Proof.
  intros HL HX HT E. destruct l as [|c l]; [left; now rewrite app_nil_r|].
  destruct HX as [->|[x' ->]].
  - destruct HT as [->|[r ->]]; [discriminate|]. cbn [app] in E. injection E as <- _. right. eauto.
  - cbn [app] in E. injection E as <- _. exfalso. apply HL. now left.
Qed.

Lemma batch_review E O n res c answers f : batch c ->
  case_review E O n res c answers f =
  if auto c res then io_bind (freeze_case E O n f) (fun _ f' => Ret (OK, NONE, answers) f') else Ret (res, NONE, answers) f.
Proof. intros [B1 B2]. unfold case_review. rewrite B1, B2. destruct res; cbn [is_ok negb andb orb auto]; rewrite ?orb_false_r; try reflexivity. Qed.

Section Project.
Variables (E o : str).
Hypothesis HE : plain_dir E.
Hypothesis Ho : plain o.
Hypothesis Hdot : starts_with [DOT] o = true.
Notation O := (E ++ SLASH :: o).

Lemma HO : plain_dir O.
Proof. apply plain_dir_join; [exact HE|apply Ho|apply Ho]. Qed.

Lemma name_vs_out n x y : n <> [] -> ~ In DOT n -> E ++ SLASH :: n ++ x <> O ++ y.
Proof.
  intros H1 H2 H. rewrite <- app_assoc in H. apply app_inv_head in H. injection H as H. apply starts_with_iff in Hdot as [o' Eo]. rewrite Eo in H.
  destruct n as [|c n]; [easy|]. cbn [app] in H. injection H as -> _. apply H2. now left.
Qed.

Lemma areas_meet r1 r2 n m p : (r1 = E \/ r1 = O) -> (r2 = E \/ r2 = O) -> case_name n -> case_name m ->
  area r1 n p -> area r2 m p -> r1 = r2 /\ (path_prefix n m \/ path_prefix m n).
Proof.
  intros R1 R2 (P1 & D1 & _) (P2 & D2 & _) (x & HX & AX) (y & HY & AY). apply proper_nonempty in P1, P2.
  apply prefix_split in AX as (t & HT & ->). apply prefix_split in AY as (t' & HT' & H).
  assert (R : r1 = r2).
  { destruct R1 as [->| ->], R2 as [->| ->]; auto; exfalso; repeat (rewrite <- app_assoc in H || cbn [app] in H).
    - apply (name_vs_out n (x ++ t) (SLASH :: m ++ y ++ t') P1 D1). rewrite H. now rewrite <- !app_assoc.
    - symmetry in H. apply (name_vs_out m (y ++ t') (SLASH :: n ++ x ++ t) P2 D2). rewrite H. now rewrite <- !app_assoc. }
  split; [exact R|]. subst r2. rewrite <- !app_assoc in H. apply app_inv_head in H. cbn [app] in H. injection H as H. rewrite <- !app_assoc in H.
  apply app_eq_app in H as (l & [[-> H]|[-> H]]).
  - right. apply names_meet with (x := y) (y := x) (t := t') (t' := t); auto; [|now apply ext_start]. intros C. apply D1. apply in_or_app. now right.
  - left. apply names_meet with (x := x) (y := y) (t := t) (t' := t'); auto; [|now apply ext_start]. intros C. apply D2. apply in_or_app. now right.
Qed.

Definition own (n p : str) : Prop := area E n p \/ area O n p.
Lemma own_disjoint names n m p : separate names -> In n names -> In m names -> own n p -> own m p -> n = m.
Proof.
  intros [S1 S2] Hn Hm H1 H2. rewrite Forall_forall in S1.
  assert (X : exists r1 r2, (r1 = E \/ r1 = O) /\ (r2 = E \/ r2 = O) /\ area r1 n p /\ area r2 m p).
  { destruct H1, H2; eauto 10. }
  destruct X as (r1 & r2 & R1 & R2 & A1 & A2). destruct (areas_meet r1 r2 n m p) as [_ [X|X]]; auto. symmetry. auto.
Qed.

Lemma own_E n x p : In x case_exts -> path_prefix (E ++ SLASH :: n ++ x) p -> own n p.
Proof. intros H1 H2. left. now exists x. Qed.
Lemma own_O n x p : In x case_exts -> path_prefix (O ++ SLASH :: n ++ x) p -> own n p.
Proof. intros H1 H2. right. now exists x. Qed.
Lemma prefix_below a p : below a p = true -> path_prefix a p.
Proof. intros H. apply below_iff in H as [r ->]. right. eauto. Qed.
Lemma prefix_refl a : path_prefix a a.
Proof. now left. Qed.

Ltac norm := repeat (rewrite <- app_assoc || cbn [app]).
Ltac norm_in H := repeat (rewrite <- app_assoc in H || cbn [app] in H).
Ltac ext := unfold case_exts; cbn [In]; tauto.

(** everything [ready] says is about the case's own files *)
Lemma ready_local n f g : (forall p, own n p -> lookup p f = lookup p g) -> ready E O n f -> ready E O n g.
Proof.
  intros H (R1 & R2 & R3 & R4 & R5). split; [|split; [|split; [|split]]].
  - rewrite <- H; [exact R1|]. apply (own_E n []); [ext|]. rewrite app_nil_r. apply prefix_refl.
  - refine (eq_trans (eq_sym (is_dir_ext _ f g _)) R2). intros p B. apply H. apply (own_E n (lit ".md")); [ext|]. now apply prefix_below.
  - rewrite <- H; [exact R3|]. apply (own_O n []); [ext|]. rewrite app_nil_r. apply prefix_refl.
  - rewrite <- H; [exact R4|]. apply (own_O n (lit ".tmp")); [ext|]. apply prefix_refl.
  - intros x Hx. refine (eq_trans (eq_sym (is_dir_ext _ f g _)) (R5 x Hx)). intros p B. apply H. apply (own_O n x); [|now apply prefix_below].
    unfold case_exts. destruct Hx as [<-|[<-|[<-|[<-|[]]]]]; ext.
Qed.

(** ** One case *)
(** the file system after the body, before the review *)
Definition out_exts : list str := [[]; lit ".md"; lit ".txt"; lit ".log"; lit ".tmp"].
Record after_body (n : str) (b : body_run) (s : state) (f g : fs) : Prop := {
  ab_md : lookup (O ++ SLASH :: n ++ lit ".md") g = Some (out s);
  ab_txt : lookup (O ++ SLASH :: n ++ lit ".txt") g = Some (rep s);
  ab_log : lookup (O ++ SLASH :: n ++ lit ".log") g = Some (b_log b);
  ab_dir : forall r, lookup (O ++ SLASH :: n ++ SLASH :: r) g = last_write r (b_files b);
  ab_tmp : forall r, lookup (O ++ SLASH :: n ++ lit ".tmp" ++ SLASH :: r) g = last_write r (b_tmp b);
  ab_rest : forall p, (forall x, In x out_exts -> ~ path_prefix (O ++ SLASH :: n ++ x) p) -> lookup p g = lookup p f;
  ab_ready : ready E O n g
}.

Lemma start_ok n f : case_name n -> ready E O n f -> exists f1,
  case_start E O n f = Ret (lookup (E ++ SLASH :: n ++ lit ".md") f) f1 /\
  forall p, lookup p f1 =
    if str_eqb (O ++ SLASH :: n ++ lit ".log") p then Some [] else if str_eqb (O ++ SLASH :: n ++ lit ".txt") p then Some [] else
    if str_eqb (O ++ SLASH :: n ++ lit ".md") p then Some [] else
    if below (O ++ SLASH :: n ++ lit ".tmp") p then None else if below (O ++ SLASH :: n ++ []) p then None else lookup p f.
Proof.
  intros (P & D & _) (R1 & R2 & R3 & R4 & R5). unfold case_start.
  rewrite !(case_path_eq O) by (exact HO || exact P). rewrite (case_path_eq E) by (exact HE || exact P).
  destruct (purge_ok (O ++ SLASH :: n ++ []) f) as (g1 & -> & G1); [now rewrite app_nil_r|]. cbn [io_bind].
  destruct (purge_ok (O ++ SLASH :: n ++ lit ".tmp") g1) as (g2 & -> & G2); [rewrite G1, below_case; exact R4|]. cbn [io_bind].
  assert (G : forall p, lookup p g2 = if below (O ++ SLASH :: n ++ lit ".tmp") p then None else if below (O ++ SLASH :: n ++ []) p then None else lookup p f)
    by (intros p; now rewrite G2, G1).
  assert (DIR : forall x, In x [lit ".md"; lit ".txt"; lit ".log"; lit ".bin"] -> is_dir (O ++ SLASH :: n ++ x) g2 = false).
  { intros x Hx. destruct (is_dir _ g2) eqn:X; [|reflexivity]. apply is_dir_iff in X as (p & t & L & B). rewrite G in L.
    rewrite (is_dir_false _ _ _ (R5 x Hx) B) in L. now destruct (below _ p), (below _ p). }
  assert (W : forall x y c g, is_dir (O ++ SLASH :: n ++ x) g = false -> below x y = false ->
     is_dir (O ++ SLASH :: n ++ x) (write_file (O ++ SLASH :: n ++ y) c g) = false).
  { intros x y c g X B. destruct (is_dir _ (write_file _ _ _)) eqn:Y; [|reflexivity]. apply is_dir_iff in Y as (p & t & L & BB). rewrite lookup_write in L.
    destruct (str_eqb_spec (O ++ SLASH :: n ++ y) p) as [<-|_]; [rewrite below_case in BB; congruence|]. rewrite (is_dir_false _ _ _ X BB) in L. discriminate. }
  unfold open_w. rewrite DIR by ext. cbn [io_bind]. rewrite W; [|apply DIR; ext|reflexivity]. cbn [io_bind].
  rewrite W; [|apply W; [apply DIR; ext|reflexivity]|reflexivity]. cbn [io_bind].
  set (f1 := write_file _ [] (write_file _ [] _)).
  assert (F : forall p, lookup p f1 =
    if str_eqb (O ++ SLASH :: n ++ lit ".log") p then Some [] else if str_eqb (O ++ SLASH :: n ++ lit ".txt") p then Some [] else
    if str_eqb (O ++ SLASH :: n ++ lit ".md") p then Some [] else
    if below (O ++ SLASH :: n ++ lit ".tmp") p then None else if below (O ++ SLASH :: n ++ []) p then None else lookup p f).
  { intros p. unfold f1. now rewrite !lookup_write, G. }
  exists f1. split; [|exact F].
  assert (X : lookup (E ++ SLASH :: n ++ lit ".md") f1 = lookup (E ++ SLASH :: n ++ lit ".md") f).
  { rewrite F. assert (Q : forall y, str_eqb (O ++ SLASH :: n ++ y) (E ++ SLASH :: n ++ lit ".md") = false).
    { intros y. apply str_eqb_neq. intros X. symmetry in X. revert X. apply (name_vs_out n (lit ".md") (SLASH :: n ++ y)); [now apply proper_nonempty|exact D]. }
    assert (Q2 : forall y, below (O ++ SLASH :: n ++ y) (E ++ SLASH :: n ++ lit ".md") = false).
    { intros y. destruct (below _ _) eqn:X; [|reflexivity]. apply below_iff in X as [r X]. exfalso. revert X.
      rewrite <- app_assoc. apply (name_vs_out n (lit ".md") ((SLASH :: n ++ y) ++ SLASH :: r)); [now apply proper_nonempty|exact D]. }
    now rewrite !Q, !Q2. }
  unfold path_exists, is_file. rewrite R2, orb_false_r. rewrite X. now destruct (lookup (E ++ SLASH :: n ++ lit ".md") f).
Qed.

Lemma body_ok n b s f : case_name n -> ready E O n f -> exists f1 g,
  case_start E O n f = Ret (lookup (E ++ SLASH :: n ++ lit ".md") f) f1 /\ case_files O n b s f1 = g /\ after_body n b s f g.
Proof.
  intros C R. destruct (start_ok n f C R) as (f1 & S & F). exists f1. eexists. split; [exact S|]. split; [reflexivity|].
  destruct C as (P & D & _). unfold case_files. rewrite !(case_path_eq O) by (exact HO || exact P).
  set (g := write_file _ _ _).
  assert (G : forall p, lookup p g =
    if str_eqb (O ++ SLASH :: n ++ lit ".txt") p then Some (rep s) else if str_eqb (O ++ SLASH :: n ++ lit ".md") p then Some (out s) else
    if str_eqb (O ++ SLASH :: n ++ lit ".log") p then Some (b_log b) else
    lookup p (write_below (O ++ SLASH :: n ++ lit ".tmp") (b_tmp b) (write_below (O ++ SLASH :: n ++ []) (b_files b) f1))).
  { intros p. unfold g. now rewrite !lookup_write. }
  assert (IN : forall p, (forall x, In x out_exts -> ~ path_prefix (O ++ SLASH :: n ++ x) p) -> lookup p g = lookup p f).
  { intros p N. assert (Q : forall x, In x out_exts -> str_eqb (O ++ SLASH :: n ++ x) p = false /\ below (O ++ SLASH :: n ++ x) p = false).
    { intros x Hx. specialize (N x Hx). split; [apply str_eqb_neq; intros Q; apply N; left; auto|].
      destruct (below _ p) eqn:B; [|reflexivity]. exfalso. apply N. now apply prefix_below. }
    assert (Q1 := Q [] ltac:(unfold out_exts; ext)). assert (Q2 := Q (lit ".md") ltac:(unfold out_exts; ext)). assert (Q3 := Q (lit ".txt") ltac:(unfold out_exts; ext)).
    assert (Q4 := Q (lit ".log") ltac:(unfold out_exts; ext)). assert (Q5 := Q (lit ".tmp") ltac:(unfold out_exts; ext)).
    rewrite G. rewrite (proj1 Q3), (proj1 Q2), (proj1 Q4). rewrite !lookup_write_below_out by (apply Q1 || apply Q5).
    rewrite F. now rewrite (proj1 Q3), (proj1 Q2), (proj1 Q4), (proj2 Q5), (proj2 Q1). }
  assert (EX : forall x p, path_prefix (E ++ SLASH :: n ++ x) p -> lookup p g = lookup p f).
  { intros x p HP. apply IN. intros y Hy HY. apply prefix_split in HP as (t & _ & ->). apply prefix_split in HY as (t' & _ & X).
    apply (name_vs_out n (x ++ t) (SLASH :: n ++ y ++ t')); [now apply proper_nonempty|exact D|]. norm. norm_in X. exact X. }
  destruct R as (R1 & R2 & R3 & R4 & R5).
  split.
  - rewrite G, !eqb_case. reflexivity.
  - rewrite G, !eqb_case. reflexivity.
  - rewrite G, !eqb_case. reflexivity.
  - intros r. rewrite G, !eqb_case. cbn [str_eqb]. change (lit ".txt") with (DOT :: lit "txt"). change (lit ".md") with (DOT :: lit "md"). change (lit ".log") with (DOT :: lit "log").
    cbn [str_eqb N.eqb andb]. rewrite lookup_write_below_out by (rewrite below_case; reflexivity).
    pose proof (lookup_write_below_in (O ++ SLASH :: n ++ []) (b_files b) f1 r) as L. rewrite app_nil_r in L |- *.
    rewrite (at_case O n (SLASH :: r)), L.
    destruct (last_write r (b_files b)) as [t|]; [reflexivity|]. rewrite F, app_nil_r.
    assert (below (O ++ SLASH :: n) ((O ++ SLASH :: n) ++ SLASH :: r) = true) as -> by (apply below_iff; eauto).
    rewrite <- (at_case O n (SLASH :: r)), !eqb_case.
    change (lit ".txt") with (DOT :: lit "txt"). change (lit ".md") with (DOT :: lit "md"). change (lit ".log") with (DOT :: lit "log").
    cbn [str_eqb N.eqb andb]. now destruct (below _ _).
  - intros r. rewrite G, !eqb_case. assert (N : forall x, In x [lit ".txt"; lit ".md"; lit ".log"] -> str_eqb x (lit ".tmp" ++ SLASH :: r) = false).
    { intros x [<-|[<-|[<-|[]]]]; reflexivity. }
    rewrite !N by ext. rewrite <- (in_case O n (lit ".tmp")).
    rewrite lookup_write_below_in. destruct (last_write r (b_tmp b)) as [t|]; [reflexivity|].
    rewrite (in_case O n (lit ".tmp")).
    rewrite lookup_write_below_out by (rewrite below_case; reflexivity). rewrite F, !eqb_case, !N by ext. rewrite !below_case.
    assert (below (lit ".tmp") (lit ".tmp" ++ SLASH :: r) = true) as -> by (apply below_iff; eauto). reflexivity.
  - exact IN.
  - assert (OUT : forall x p, In x [lit ".md"; lit ".txt"; lit ".log"; lit ".bin"] -> below (O ++ SLASH :: n ++ x) p = true -> lookup p g = lookup p f).
    { intros x p Hx B. apply below_iff in B as [r ->]. rewrite in_case. rewrite G, !eqb_case.
      rewrite !lookup_write_below_out by (rewrite below_case; destruct Hx as [<-|[<-|[<-|[<-|[]]]]]; reflexivity).
      rewrite F, !eqb_case, !below_case. destruct Hx as [<-|[<-|[<-|[<-|[]]]]]; reflexivity. }
    assert (SELF : forall x, x = [] \/ x = lit ".tmp" -> lookup (O ++ SLASH :: n ++ x) g = lookup (O ++ SLASH :: n ++ x) f).
    { intros x Hx. rewrite G, !eqb_case. rewrite !lookup_write_below_out by (rewrite below_case; destruct Hx as [->| ->]; reflexivity).
      rewrite F, !eqb_case, !below_case. destruct Hx as [->| ->]; reflexivity. }
    split; [|split; [|split; [|split]]].
    + rewrite (EX [] (E ++ SLASH :: n)); [exact R1|]. rewrite app_nil_r. apply prefix_refl.
    + refine (eq_trans (is_dir_ext _ g f _) R2). intros p B. apply (EX (lit ".md")). now apply prefix_below.
    + pose proof (SELF [] (or_introl eq_refl)) as X. rewrite app_nil_r in X. now rewrite X.
    + rewrite SELF by auto. exact R4.
    + intros x Hx. refine (eq_trans (is_dir_ext _ g f _) (R5 x Hx)). intros p B. now apply (OUT x p Hx).
Qed.

Lemma name_not_o n : case_name n -> ~ path_prefix o n /\ ~ path_prefix n o.
Proof.
  intros (P & D & _). pose proof (proper_nonempty n P) as NE. apply starts_with_iff in Hdot as [o' Eo].
  split; intros [X|[r X]].
  - apply D. rewrite X, Eo. now left.
  - apply D. rewrite X, Eo. now left.
  - apply D. rewrite <- X, Eo. now left.
  - destruct n as [|z n]; [easy|]. rewrite Eo in X. cbn [app] in X. injection X as <- _. apply D. now left.
Qed.

Lemma freeze_ok n b s f g : case_name n -> after_body n b s f g -> exists h,
  freeze_case E O n g = Ret tt h /\ accepted E O n g h.
Proof.
  intros C A. destruct (name_not_o n C) as [N1 N2]. destruct (ab_ready _ _ _ _ _ A) as (R1 & R2 & R3 & R4 & R5).
  eapply freeze_accepts; eauto; [apply proper_plain, C|apply (ab_md _ _ _ _ _ A)].
Qed.

(** own files outside the acceptance *)
Lemma own_other n x y : case_name n -> ~ path_prefix [] y -> y <> lit ".md" -> x = E \/ x = O ->
  ~ case_file E n (x ++ SLASH :: n ++ y) /\ ~ case_file O n (x ++ SLASH :: n ++ y).
Proof.
  intros (P & D & _) N1 N2 [->| ->]; split; intros [X|[r X]].
  - rewrite !at_case in X. apply app_inv_head in X. contradiction.
  - rewrite !at_case in X. apply app_inv_head in X. apply N1. right. exists r. exact X.
  - revert X. apply (name_vs_out n y (SLASH :: n ++ lit ".md")); [now apply proper_nonempty|exact D].
  - revert X. apply (name_vs_out n y (SLASH :: n ++ SLASH :: r)); [now apply proper_nonempty|exact D].
  - symmetry in X. revert X. apply (name_vs_out n (lit ".md") (SLASH :: n ++ y)); [now apply proper_nonempty|exact D].
  - symmetry in X. revert X. apply (name_vs_out n (SLASH :: r) (SLASH :: n ++ y)); [now apply proper_nonempty|exact D].
  - rewrite !at_case in X. apply app_inv_head in X. contradiction.
  - rewrite !at_case in X. apply app_inv_head in X. apply N1. right. exists r. exact X.
Qed.

Lemma case_file_own n p : case_file E n p \/ case_file O n p -> own n p.
Proof.
  intros [[->|[r ->]]|[->|[r ->]]].
  - apply (own_E n (lit ".md")); [ext|apply prefix_refl].
  - apply (own_E n []); [ext|]. rewrite app_nil_r. right. exists r. apply at_case.
  - apply (own_O n (lit ".md")); [ext|apply prefix_refl].
  - apply (own_O n []); [ext|]. rewrite app_nil_r. right. exists r. apply at_case.
Qed.

Lemma rest_ready n g h : case_name n -> (forall p, ~ case_file E n p -> ~ case_file O n p -> lookup p h = lookup p g) -> ready E O n g -> ready E O n h.
Proof.
  intros C A (R1 & R2 & R3 & R4 & R5).
  assert (NP : forall x, ~ path_prefix [] (DOT :: x)) by (intros x [X|[r X]]; discriminate).
  assert (OTHER : forall x y, ~ path_prefix [] y -> y <> lit ".md" -> x = E \/ x = O -> lookup (x ++ SLASH :: n ++ y) h = lookup (x ++ SLASH :: n ++ y) g).
  { intros x y N1 N2 HX. destruct (own_other n x y C N1 N2 HX). now apply A. }
  assert (SELF : forall x, x = E \/ x = O -> lookup (x ++ SLASH :: n) h = lookup (x ++ SLASH :: n) g).
  { intros x HX. apply A; destruct C as (P & D & _); destruct HX as [->| ->]; intros [X|[r X]].
    - rewrite <- (app_nil_r n) in X at 1. rewrite !at_case in X. apply app_inv_head in X. discriminate.
    - rewrite <- (app_nil_r n) in X at 1. rewrite !at_case in X. apply app_inv_head in X. discriminate.
    - symmetry in X. revert X. apply (name_vs_out n (lit ".md") (SLASH :: n)); [now apply proper_nonempty|exact D].
    - symmetry in X. revert X. apply (name_vs_out n (SLASH :: r) (SLASH :: n)); [now apply proper_nonempty|exact D].
    - rewrite <- (app_nil_r n) in X at 1. revert X. apply (name_vs_out n [] (SLASH :: n ++ lit ".md")); [now apply proper_nonempty|exact D].
    - rewrite <- (app_nil_r n) in X at 1. revert X. apply (name_vs_out n [] (SLASH :: n ++ SLASH :: r)); [now apply proper_nonempty|exact D].
    - rewrite <- (app_nil_r n) in X at 1. rewrite !at_case in X. apply app_inv_head in X. discriminate.
    - rewrite <- (app_nil_r n) in X at 1. rewrite !at_case in X. apply app_inv_head in X. discriminate. }
  split; [|split; [|split; [|split]]].
  - rewrite SELF by auto. exact R1.
  - refine (eq_trans (is_dir_ext _ h g _) R2). intros p B. apply below_iff in B as [r ->]. rewrite in_case. apply OTHER; [apply NP|discriminate|auto].
  - rewrite SELF by auto. exact R3.
  - rewrite OTHER; [exact R4|apply NP|discriminate|auto].
  - intros x Hx. refine (eq_trans (is_dir_ext _ h g _) (R5 x Hx)). intros p B. apply below_iff in B as [r ->]. rewrite in_case.
    destruct Hx as [<-|[<-|[<-|[<-|[]]]]]; apply OTHER; auto; try apply NP; discriminate.
Qed.
Lemma accepted_ready n g h : case_name n -> accepted E O n g h -> ready E O n g -> ready E O n h.
Proof. intros C A. apply rest_ready; [exact C|apply (acc_rest _ _ _ _ _ A)]. Qed.

Lemma save_ok n v f : case_name n -> ready E O n f -> exists h, save_value O n v f = Ret tt h /\
  lookup (O ++ SLASH :: n ++ lit ".bin") h = v /\ forall p, p <> O ++ SLASH :: n ++ lit ".bin" -> lookup p h = lookup p f.
Proof.
  intros C (_ & _ & _ & _ & R). specialize (R (lit ".bin") ltac:(cbn [In]; tauto)). unfold save_value.
  assert (path_join O (n ++ lit ".bin") = O ++ SLASH :: n ++ lit ".bin") as ->.
  { apply path_join_plain; try apply HO. pose proof (proper_start n (proj1 C)) as X. pose proof (proper_nonempty n (proj1 C)). destruct n; [easy|exact X]. }
  unfold path_exists, is_file. rewrite R, orb_false_r. destruct v as [x|].
  - eexists. split; [reflexivity|]. split; [rewrite lookup_write, str_eqb_refl; reflexivity|]. intros p N. rewrite lookup_write.
    destruct (str_eqb_spec (O ++ SLASH :: n ++ lit ".bin") p) as [<-|_]; [easy|reflexivity].
  - destruct (lookup (O ++ SLASH :: n ++ lit ".bin") f) as [t|] eqn:L.
    + eexists. split; [reflexivity|]. split; [rewrite lookup_remove, str_eqb_refl; reflexivity|]. intros p N. rewrite lookup_remove.
      destruct (str_eqb_spec (O ++ SLASH :: n ++ lit ".bin") p) as [<-|_]; [easy|reflexivity].
    + exists f. auto.
Qed.

Lemma ready_bin n f h : case_name n -> (forall p, p <> O ++ SLASH :: n ++ lit ".bin" -> lookup p h = lookup p f) -> ready E O n f -> ready E O n h.
Proof.
  intros (P & D & _) H (R1 & R2 & R3 & R4 & R5). pose proof (proper_nonempty n P) as NE.
  assert (NB : forall y, y <> lit ".bin" -> O ++ SLASH :: n ++ y <> O ++ SLASH :: n ++ lit ".bin").
  { intros y N X. apply N. rewrite !at_case in X. now apply app_inv_head in X. }
  assert (EB : forall y, E ++ SLASH :: n ++ y <> O ++ SLASH :: n ++ lit ".bin") by (intros y; now apply name_vs_out).
  split; [|split; [|split; [|split]]].
  - rewrite H; [exact R1|]. rewrite <- (app_nil_r n) at 1. apply EB.
  - refine (eq_trans (is_dir_ext _ h f _) R2). intros p B. apply below_iff in B as [r ->]. rewrite in_case. apply H, EB.
  - rewrite H; [exact R3|]. rewrite <- (app_nil_r n) at 1. apply NB. discriminate.
  - rewrite H; [exact R4|]. apply NB. discriminate.
  - intros x Hx. refine (eq_trans (is_dir_ext _ h f _) (R5 x Hx)). intros p B. apply below_iff in B as [r ->]. rewrite in_case. apply H, NB.
    destruct Hx as [<-|[<-|[<-|[<-|[]]]]]; discriminate.
Qed.

Section Run.
Variable cc : CharClass.
Variable refloat : str -> option str.
Variable c : config.
Variable body : str -> fs -> body_run.
Hypothesis HB : batch c.

Lemma run_case_exact n answers f : case_name n -> ready E O n f -> exists f1,
  case_start E O n f = Ret (lookup (E ++ SLASH :: n ++ lit ".md") f) f1 /\
  match run_body cc refloat (lookup (E ++ SLASH :: n ++ lit ".md") f) (point_error_pos c) (all_ops (body n f1)) with
  | None => run_case cc refloat E O c body n answers f = None
  | Some s =>
      let v := verdict (match lookup (E ++ SLASH :: n ++ lit ".md") f with Some _ => true | None => false end) s in
      let res := if auto c v then OK else v in
      exists h, run_case cc refloat E O c body n answers f = Some (Ret (res, NONE, answers) h) /\
        case_ran E O n (body n f1) s (auto c v) res f h /\ ready E O n h
  end.
Proof.
  intros C R. destruct (start_ok n f C R) as (f1 & S & _). exists f1. split; [exact S|].
  unfold run_case. rewrite S. cbn [run_bind]. set (b := body n f1).
  destruct (run_body cc refloat _ _ _) as [s|] eqn:EB; [|reflexivity].
  destruct (body_ok n b s f C R) as (f1' & g & S' & G & A). rewrite S in S'. injection S' as <-. rewrite G.
  rewrite case_path_eq by (exact HE || apply C).
  pose proof (ab_ready _ _ _ _ _ A) as RG. pose proof (proper_nonempty n (proj1 C)) as NE. pose proof (proj1 (proj2 C)) as ND.
  assert (NOTO : forall y x, In x out_exts -> ~ path_prefix (O ++ SLASH :: n ++ x) (E ++ SLASH :: n ++ y)).
  { intros y x _ X. apply prefix_split in X as (t & _ & X). rewrite in_case in X. revert X. now apply name_vs_out. }
  assert (EXP : forall y, lookup (E ++ SLASH :: n ++ y) g = lookup (E ++ SLASH :: n ++ y) f).
  { intros y. apply (ab_rest _ _ _ _ _ A). apply NOTO. }
  assert (path_exists (E ++ SLASH :: n ++ lit ".md") g = match lookup (E ++ SLASH :: n ++ lit ".md") f with Some _ => true | None => false end) as ->.
  { unfold path_exists, is_file. destruct RG as (_ & R2 & _). rewrite R2, orb_false_r, EXP. reflexivity. }
  set (v := verdict _ s). cbv zeta. rewrite base_review by (exact HE || exact HO || apply C). rewrite batch_review by exact HB.
  assert (BIN : forall y, ~ path_prefix [] y -> y <> lit ".md" -> forall x, In x out_exts -> ~ path_prefix x y -> ~ path_prefix (O ++ SLASH :: n ++ x) (O ++ SLASH :: n ++ y)).
  { intros y _ _ x _ N X. apply N. apply prefix_split in X as (t & HT & X). rewrite in_case in X. rewrite !at_case in X. apply app_inv_head in X. subst y.
    destruct HT as [->|[r ->]]; [left; now rewrite app_nil_r|right; eauto]. }
  assert (GB : lookup (O ++ SLASH :: n ++ lit ".bin") g = lookup (O ++ SLASH :: n ++ lit ".bin") f).
  { apply (ab_rest _ _ _ _ _ A). intros x Hx X. apply prefix_split in X as (t & HT & X). rewrite in_case, !at_case in X. apply app_inv_head in X.
    unfold out_exts in Hx. destruct Hx as [<-|[<-|[<-|[<-|[<-|[]]]]]], HT as [->|[r ->]]; discriminate X. }
  assert (NOE : forall p y, path_prefix (E ++ SLASH :: n ++ y) p -> forall x, In x out_exts -> ~ path_prefix (O ++ SLASH :: n ++ x) p).
  { intros p y HP x _ X. apply prefix_split in HP as (t & _ & ->). apply prefix_split in X as (t' & _ & X). rewrite !in_case in X. revert X. now apply name_vs_out. }
  assert (REST : forall p, ~ case_file E n p -> ~ area O n p -> lookup p g = lookup p f).
  { intros p _ N. apply (ab_rest _ _ _ _ _ A). intros x Hx X. apply N. exists x. split; [|exact X].
    unfold out_exts, case_exts in *. destruct Hx as [<-|[<-|[<-|[<-|[<-|[]]]]]]; ext. }
  destruct (auto c v) eqn:AU.
  - destruct (freeze_ok n b s f g C A) as (h0 & F & AC). rewrite F. cbn [io_bind run_bind].
    pose proof (accepted_ready n g h0 C AC RG) as RH. destruct (save_ok n (match b_exc b with Some _ => None | None => b_value b end) h0 C RH) as (h & SV & LB & LO).
    rewrite SV. cbn [io_bind]. exists h. split; [reflexivity|]. split; [|exact (ready_bin n h0 h C LO RH)].
    assert (NB : forall y, y <> lit ".bin" -> lookup (O ++ SLASH :: n ++ y) h = lookup (O ++ SLASH :: n ++ y) h0).
    { intros y N. apply LO. intros X. apply N. rewrite !at_case in X. now apply app_inv_head in X. }
    assert (NBE : forall y, lookup (E ++ SLASH :: n ++ y) h = lookup (E ++ SLASH :: n ++ y) h0) by (intros y; apply LO; now apply name_vs_out).
    assert (NP : forall x, ~ path_prefix [] (DOT :: x)) by (intros x [X|[r X]]; discriminate).
    assert (KEEP : forall y, y <> lit ".bin" -> ~ path_prefix [] y -> y <> lit ".md" -> lookup (O ++ SLASH :: n ++ y) h = lookup (O ++ SLASH :: n ++ y) g).
    { intros y N1 N2 N3. rewrite NB by exact N1. destruct (own_other n O y C N2 N3 (or_intror eq_refl)). now apply (acc_rest _ _ _ _ _ AC). }
    split.
    + rewrite NBE, (acc_md _ _ _ _ _ AC). apply (ab_md _ _ _ _ _ A).
    + intros r. rewrite NBE, (acc_files _ _ _ _ _ AC). apply (ab_dir _ _ _ _ _ A).
    + rewrite NB by discriminate. apply (acc_moved _ _ _ _ _ AC). now left.
    + intros r. rewrite NB by discriminate. apply (acc_moved _ _ _ _ _ AC). right. eauto.
    + rewrite KEEP by (try apply NP; discriminate). apply (ab_txt _ _ _ _ _ A).
    + rewrite KEEP by (try apply NP; discriminate). apply (ab_log _ _ _ _ _ A).
    + intros r. rewrite KEEP by (try apply NP; discriminate). apply (ab_tmp _ _ _ _ _ A).
    + exact LB.
    + intros p N1 N2. rewrite LO.
      * rewrite (acc_rest _ _ _ _ _ AC); [now apply REST|exact N1|]. intros X. apply N2. destruct X as [->|[r ->]].
        -- exists (lit ".md"). split; [ext|apply prefix_refl].
        -- exists []. split; [ext|]. rewrite app_nil_r, at_case. right. eauto.
      * intros ->. apply N2. exists (lit ".bin"). split; [ext|apply prefix_refl].
  - cbn [run_bind].
    assert (FIN : exists h, match v with FAIL => Some (Ret (v, NONE, answers) g) | _ =>
        Some (io_bind (save_value O n (match b_exc b with Some _ => None | None => b_value b end) g) (fun _ f4 => Ret (v, NONE, answers) f4)) end = Some (Ret (v, NONE, answers) h) /\
        lookup (O ++ SLASH :: n ++ lit ".bin") h = (if is_fail v then lookup (O ++ SLASH :: n ++ lit ".bin") f else match b_exc b with Some _ => None | None => b_value b end) /\
        forall p, p <> O ++ SLASH :: n ++ lit ".bin" -> lookup p h = lookup p g).
    { destruct (save_ok n (match b_exc b with Some _ => None | None => b_value b end) g C RG) as (h & SV & LB & LO).
      destruct v; cbn [is_fail]; rewrite ?SV; cbn [io_bind]; solve [exists h; auto|exists g; auto]. }
    destruct FIN as (h & EQ & LB & LO). exists h. split; [exact EQ|]. split; [|exact (ready_bin n g h C LO RG)].
    assert (NB : forall y, y <> lit ".bin" -> lookup (O ++ SLASH :: n ++ y) h = lookup (O ++ SLASH :: n ++ y) g).
    { intros y N. apply LO. intros X. apply N. rewrite !at_case in X. now apply app_inv_head in X. }
    assert (NBE : forall y, lookup (E ++ SLASH :: n ++ y) h = lookup (E ++ SLASH :: n ++ y) f) by (intros y; rewrite LO; [apply EXP|now apply name_vs_out]).
    split.
    + apply NBE.
    + intros r. apply NBE.
    + rewrite NB by discriminate. apply (ab_md _ _ _ _ _ A).
    + intros r. rewrite NB by discriminate. apply (ab_dir _ _ _ _ _ A).
    + rewrite NB by discriminate. apply (ab_txt _ _ _ _ _ A).
    + rewrite NB by discriminate. apply (ab_log _ _ _ _ _ A).
    + intros r. rewrite NB by discriminate. apply (ab_tmp _ _ _ _ _ A).
    + exact LB.
    + intros p N1 N2. rewrite LO; [now apply REST|]. intros ->. apply N2. exists (lit ".bin"). split; [ext|apply prefix_refl].
Qed.
End Run.
End Project.
