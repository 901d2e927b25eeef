(** C109: an image that is named after its content is kept, and the test breaks exactly when it changes. *)
From Verif Require Import PyStrFacts FsModel FsFacts FormatModel FormatProofs FormatProps CaseRunModel CaseRunSpec CaseRunProps CaseRunFacts ImageModel.
From Coq Require Import Lia.

Lemma span_stop (p : char -> bool) (a : str) x b : forallb p a = true -> p x = false -> span p (a ++ x :: b) = (a, x :: b).
Proof. induction a as [|y a IH]; intros F N; cbn [app span]; [now rewrite N|]. cbn [forallb] in F. apply andb_true_iff in F as [F1 F2]. rewrite F1, IH by assumption. reflexivity. Qed.
Lemma split_join d b : d <> [] -> ends_with [SLASH] d = false -> ~ In SLASH b -> path_split (d ++ SLASH :: b) = (d, b).
Proof.
  intros N E NB. unfold path_split. rewrite rev_app_distr. cbn [rev]. rewrite <- app_assoc. cbn [app].
  rewrite span_stop.
  - destruct d as [|c d] using rev_ind; [now elim N|]. clear IHd. rewrite rev_app_distr. cbn [rev app].
    assert (NC : N.eqb SLASH c = false).
    { destruct (N.eqb_spec SLASH c) as [<-|]; [|reflexivity]. rewrite (proj2 (ends_with_iff [SLASH] (d ++ [SLASH]))) in E by eauto. discriminate. }
    replace (lstrip (N.eqb SLASH) (SLASH :: c :: rev d)) with (c :: rev d) by (unfold lstrip; cbn [span]; now rewrite N.eqb_refl, NC). cbn [rev]. now rewrite !rev_involutive.
  - apply forallb_forall. intros c I. apply in_rev in I. destruct (N.eqb_spec c SLASH) as [->|]; [contradiction|reflexivity].
  - now rewrite N.eqb_refl.
Qed.

(** the file names of an image: as saved, and after its content *)
Definition image_names (sha : str -> str) (i : shown_item) : list (str * str * str) :=
  match i with Line _ => [] | Image fn post _ c => [(fn, sha c ++ post, c)] end.
(** the line of an item *)
Definition item_line (sha : str -> str) (name : str) (i : shown_item) : str :=
  match i with
  | Line t => t
  | Image _ post alt c =>
      lit "![" ++ match alt with Some a => a | None => splitext_root (sha c ++ post) end ++ lit "](" ++ name ++ [SLASH] ++ sha c ++ post ++ lit ")"
  end.
Definition plain_name (p : str) : Prop := p <> [] /\ p <> lit "." /\ p <> lit ".." /\ ~ In SLASH p.

Section Files.
  Variable sha : str -> str.
  Variable cwd out name : str.
  Hypothesis CWD : starts_with [SLASH] cwd = true.
  Hypothesis OUT : out <> [] /\ abspath cwd out <> lit "/" /\ abspath cwd out <> lit "//".
  Hypothesis NAME : plain_name name.
  Notation D := (path_join out name).

  Lemma no_slash_start b : ~ In SLASH b -> starts_with [SLASH] b = false.
  Proof. intros N. destruct (starts_with [SLASH] b) eqn:S; [|reflexivity]. apply starts_with_iff in S as [r ->]. exfalso. apply N. now left. Qed.
  Lemma no_slash_end b : ~ In SLASH b -> ends_with [SLASH] b = false.
  Proof. intros N. destruct (ends_with [SLASH] b) eqn:S; [|reflexivity]. apply ends_with_iff in S as [r ->]. exfalso. apply N. apply in_or_app. right. now left. Qed.
  Lemma D_shape : D <> [] /\ ends_with [SLASH] D = false /\ exists o', o' <> [] /\ D = o' ++ name /\ forall b, ~ In SLASH b -> path_join out (name ++ [SLASH] ++ b) = D ++ SLASH :: b.
  Proof.
    destruct NAME as (N1 & _ & _ & N4), OUT as (O1 & _). unfold path_join. rewrite (no_slash_start name N4).
    assert (EW : forall o', ends_with [SLASH] (o' ++ name) = false).
    { intros o'. destruct (ends_with [SLASH] (o' ++ name)) eqn:S; [|reflexivity]. apply ends_with_iff in S as [r R]. destruct name as [|c nm] using rev_ind; [now elim N1|].
      rewrite app_assoc in R. apply app_inj_tail in R as [_ ->]. exfalso. apply N4. apply in_or_app. right. now left. }
    assert (ST : forall b, starts_with [SLASH] (name ++ [SLASH] ++ b) = false).
    { intros b. destruct name as [|c nm]; [now elim N1|]. cbn [app starts_with]. destruct (N.eqb_spec SLASH c) as [<-|NE]; [exfalso; apply N4; now left|].
      cbn. destruct (N.eqb_spec SLASH c); [congruence|reflexivity]. }
    destruct out as [|c o]; [now elim O1|]. destruct (ends_with [SLASH] (c :: o)).
    - split; [discriminate|]. split; [apply EW|]. exists (c :: o). split; [discriminate|]. split; [reflexivity|]. intros b _. rewrite ST. now rewrite <- app_assoc.
    - split; [discriminate|]. split; [rewrite app_assoc; apply EW|]. exists ((c :: o) ++ [SLASH]). split; [discriminate|]. split; [now rewrite <- app_assoc|]. intros b _. rewrite ST. now rewrite <- !app_assoc.
  Qed.
  Lemma file_eq b : ~ In SLASH b -> path_join D b = D ++ SLASH :: b.
  Proof. destruct D_shape as (A & B & _). intros N. apply path_join_plain; [exact A|exact B|now apply no_slash_start]. Qed.
  Lemma file_inj a b : D ++ SLASH :: a = D ++ SLASH :: b -> a = b.
  Proof. intros E. apply app_inv_head in E. congruence. Qed.

  Lemma rel_eq b : plain_name b -> rel_path cwd out (D ++ SLASH :: b) = Some (name ++ [SLASH] ++ b).
  Proof.
    intros B. destruct D_shape as (_ & _ & o' & _ & _ & J). destruct B as (B1 & B2 & B3 & B4). rewrite <- (J b B4).
    destruct (C60_partial cwd out CWD) as (_ & H & _). destruct OUT as (_ & O2 & O3).
    destruct (H [name; b] ltac:(discriminate) ltac:(repeat constructor; try apply NAME; assumption) O2 O3) as [_ R]. exact R.
  Qed.

  (** one image *)
  Lemma show_image fn post alt c f : plain_name fn -> plain_name (sha c ++ post) -> is_dir (D ++ SLASH :: (sha c ++ post)) f = false ->
    exists f', show_item sha cwd out name (Image fn post alt c) f = Ret (item_line sha name (Image fn post alt c)) f' /\
      (forall p, lookup p f' = if str_eqb (D ++ SLASH :: (sha c ++ post)) p then Some c else if str_eqb (D ++ SLASH :: fn) p then None else lookup p f) /\
      (forall p, ~ In SLASH p -> is_dir (D ++ SLASH :: p) f = false -> is_dir (D ++ SLASH :: p) f' = false).
  Proof.
    intros PF PS ND. pose proof PF as (_ & _ & _ & NF). pose proof PS as (_ & _ & _ & NS).
    unfold show_item, rename_file_to_hash, case_file. rewrite (file_eq fn NF). rewrite lookup_write, str_eqb_refl.
    destruct D_shape as (D1 & D2 & _). rewrite (split_join D fn D1 D2 NF). cbn [fst]. rewrite (file_eq _ NS).
    assert (DW : forall p q c f, ~ In SLASH p -> ~ In SLASH q -> is_dir (D ++ SLASH :: p) f = false -> is_dir (D ++ SLASH :: p) (write_file (D ++ SLASH :: q) c f) = false).
    { intros p q c' f' NP NQ H. unfold is_dir, write_file in *. cbn [existsb fst].
      assert (B : below (D ++ SLASH :: p) (D ++ SLASH :: q) = false).
      { destruct (below (D ++ SLASH :: p) (D ++ SLASH :: q)) eqn:B; [|reflexivity]. apply below_iff in B as [r R]. rewrite <- app_assoc in R. apply app_inv_head in R. cbn [app] in R. injection R as R.
        exfalso. apply NQ. rewrite R. apply in_or_app. right. now left. }
      rewrite B. cbn [orb]. apply not_true_iff_false. intros X. apply existsb_exists in X as (e & I & X). apply filter_In in I as [I _].
      assert (Y : existsb (fun e => below (D ++ SLASH :: p) (fst e)) f' = true) by (apply existsb_exists; eauto). congruence. }
    assert (DR : forall p q f, is_dir (D ++ SLASH :: p) f = false -> is_dir (D ++ SLASH :: p) (remove_file q f) = false).
    { intros p q f' H. unfold is_dir, remove_file in *. apply not_true_iff_false. intros X. apply existsb_exists in X as (e & I & X). apply filter_In in I as [I _].
      assert (Y : existsb (fun e => below (D ++ SLASH :: p) (fst e)) f' = true) by (apply existsb_exists; eauto). congruence. }
    unfold rename_file. rewrite lookup_write, str_eqb_refl, (DW _ _ c f NS NF ND). cbn [io_bind].
    eexists. split; [|split].
    - f_equal. unfold timage_line, item_line. rewrite (rel_eq _ PS). unfold basename. rewrite (split_join D _ D1 D2 NS). cbn [snd].
      destruct alt; now rewrite <- ?app_assoc.
    - intros p. rewrite lookup_write, lookup_remove, lookup_write. destruct (str_eqb _ p); [reflexivity|]. now destruct (str_eqb _ p).
    - intros p NP H. apply DW; [exact NP|exact NS|]. apply DR. now apply DW.
  Qed.

  Lemma show_all : forall items f, 
    (forall fn h c, In (fn, h, c) (flat_map (image_names sha) items) -> plain_name fn /\ plain_name h /\ is_dir (D ++ SLASH :: h) f = false) ->
    (forall fn h c fn' h' c', In (fn, h, c) (flat_map (image_names sha) items) -> In (fn', h', c') (flat_map (image_names sha) items) -> fn <> h' /\ (h = h' -> c = c')) ->
    exists f', show_items sha cwd out name items f = Ret (map (item_line sha name) items) f' /\
      (forall fn h c, In (fn, h, c) (flat_map (image_names sha) items) -> lookup (D ++ SLASH :: h) f' = Some c) /\
      (forall p, (forall fn h c, In (fn, h, c) (flat_map (image_names sha) items) -> p <> D ++ SLASH :: fn /\ p <> D ++ SLASH :: h) -> lookup p f' = lookup p f).
  Proof.
    induction items as [|i items IH]; intros f OK SEP; cbn [show_items map].
    - exists f. split; [reflexivity|]. split; [intros fn h c []|reflexivity].
    - destruct i as [t|fn post alt c].
      + cbn [show_item io_bind flat_map image_names app] in *. destruct (IH f OK SEP) as (f' & E & A & B). rewrite E. cbn [io_bind]. exists f'. auto.
      + cbn [flat_map image_names app] in OK, SEP. destruct (OK fn (sha c ++ post) c (or_introl eq_refl)) as (PF & PS & ND).
        destruct (show_image fn post alt c f PF PS ND) as (f1 & E1 & L1 & DD1). rewrite E1. cbn [io_bind].
        destruct (IH f1) as (f' & E & A & B).
        { intros fn' h' c' I. destruct (OK fn' h' c' (or_intror I)) as (X & Y & Z). split; [exact X|]. split; [exact Y|]. apply DD1; [apply Y|exact Z]. }
        { intros a b d a' b' d' I I'. apply (SEP a b d a' b' d'); now right. }
        rewrite E. cbn [io_bind]. exists f'. split; [reflexivity|]. cbn [flat_map image_names app]. split.
        * intros a h d [[= <- <- <-]|I]; [|exact (A a h d I)].
          destruct (in_dec (list_eq_dec N.eq_dec) (sha c ++ post) (map (fun x => snd (fst x)) (flat_map (image_names sha) items))) as [J|J].
          -- apply in_map_iff in J as ([[a h] d] & EH & J). cbn [fst snd] in EH. subst h. destruct (SEP fn (sha c ++ post) c a (sha c ++ post) d) as [_ S]; [now left|now right|].
             rewrite (A _ _ _ J). f_equal. symmetry. exact (S eq_refl).
          -- rewrite B; [rewrite L1, str_eqb_refl; reflexivity|]. intros a h d I. split.
             ++ intros EQ. apply file_inj in EQ. destruct (SEP a h d fn (sha c ++ post) c) as [S _]; [now right|now left|congruence].
             ++ intros EQ. apply file_inj in EQ. apply J. apply in_map_iff. exists (a, h, d). auto.
        * intros p H. rewrite B by (intros a h d I; apply (H a h d); now right). rewrite L1. destruct (H fn (sha c ++ post) c (or_introl eq_refl)) as [H1 H2].
          destruct (str_eqb_spec (D ++ SLASH :: (sha c ++ post)) p) as [<-|_]; [now elim H2|]. destruct (str_eqb_spec (D ++ SLASH :: fn) p) as [<-|_]; [now elim H1|reflexivity].
  Qed.
End Files.

(** After any sequence of lines and images, every image is in the test's directory under a name made of its hash and the given postfix, with its content;
    no other file has changed, but for those under which the images were saved first; and the lines are the given ones, with the place of the image. *)
Theorem C109_images_are_kept sha cwd out name items f :
  starts_with [SLASH] cwd = true -> out <> [] -> abspath cwd out <> lit "/" -> abspath cwd out <> lit "//" -> plain_name name ->
  (forall fn h c, In (fn, h, c) (flat_map (image_names sha) items) -> plain_name fn /\ plain_name h /\ is_dir (path_join out name ++ SLASH :: h) f = false) ->
  (forall fn h c fn' h' c', In (fn, h, c) (flat_map (image_names sha) items) -> In (fn', h', c') (flat_map (image_names sha) items) -> fn <> h' /\ (h = h' -> c = c')) ->
  exists f', show_items sha cwd out name items f = Ret (map (item_line sha name) items) f' /\
    (forall fn h c, In (fn, h, c) (flat_map (image_names sha) items) -> lookup (path_join out name ++ SLASH :: h) f' = Some c) /\
    (forall p, (forall fn h c, In (fn, h, c) (flat_map (image_names sha) items) -> p <> path_join out name ++ SLASH :: fn /\ p <> path_join out name ++ SLASH :: h) ->
       lookup p f' = lookup p f).
Proof. intros CWD O1 O2 O3 NM. exact (show_all sha cwd out name CWD (conj O1 (conj O2 O3)) NM items f). Qed.
Print Assumptions C109_images_are_kept.

(** The alternative text of an image without one is its name without the extension: what is before the last dot, if that is more than
    dots, and else the whole name. *)
Theorem C109_alt_text b dot : lit "." = [dot] ->
  (exists before after, b = before ++ dot :: after /\ ~ In dot after /\ (exists c, In c before /\ c <> dot) /\ splitext_root b = before) \/
  ((forall before after, b = before ++ dot :: after -> ~ In dot after -> Forall (eq dot) before) /\ splitext_root b = b).
Proof.
  intros ED. assert (ED' : dot = DOT) by (injection ED as ED; now symmetry). subst dot. clear ED.
  assert (U : forall a x a' x' : str, a ++ DOT :: x = a' ++ DOT :: x' -> ~ In DOT x -> ~ In DOT x' -> a = a').
  { induction a as [|y a IH]; intros x [|y' a'] x' E N N'; cbn [app] in E.
    - reflexivity.
    - exfalso. injection E as _ ->. apply N. apply in_or_app. right. now left.
    - exfalso. injection E as -> E. apply N'. rewrite <- E. apply in_or_app. right. now left.
    - injection E as -> E. f_equal. exact (IH _ _ _ E N N'). }
  unfold splitext_root. destruct (span (fun c => negb (N.eqb c DOT)) (rev b)) as [a rest] eqn:SP.
  assert (NA : ~ In DOT (rev a)).
  { intros I. apply in_rev in I. pose proof (span_forall _ _ _ _ SP) as F. rewrite Forall_forall in F. specialize (F _ I). cbn beta in F. now rewrite N.eqb_refl in F. }
  pose proof (span_head _ _ _ _ SP) as H. apply span_app in SP. apply (f_equal (@rev char)) in SP. rewrite rev_involutive, rev_app_distr in SP.
  destruct rest as [|d r].
  - right. split; [|reflexivity]. intros x y E _. exfalso. apply NA. rewrite app_nil_l in SP. rewrite <- SP, E. apply in_or_app. right. now left.
  - assert (ED : d = DOT). { unfold head_not in H. cbn beta in H. apply N.eqb_eq. now destruct (N.eqb d DOT). }
    subst d. cbn [rev] in SP. rewrite <- app_assoc in SP. cbn [app] in SP. destruct (forallb (N.eqb DOT) r) eqn:FB.
    + right. split; [|reflexivity]. intros x y E NY. rewrite SP in E. rewrite <- (U _ _ _ _ E NA NY). apply Forall_rev. rewrite forallb_forall in FB. apply Forall_forall.
      intros z I. now apply N.eqb_eq, FB.
    + left. exists (rev r), (rev a). split; [exact SP|]. split; [exact NA|]. split; [|reflexivity].
      clear - FB. induction r as [|z r IH]; [discriminate|]. cbn [forallb] in FB. destruct (N.eqb_spec DOT z) as [<-|N].
      * destruct (IH FB) as (c & I & Nc). exists c. split; [|exact Nc]. cbn [rev]. apply in_or_app. now left.
      * exists z. split; [|congruence]. cbn [rev]. apply in_or_app. right. now left.
Qed.
Print Assumptions C109_alt_text.
Example C109_alt_text_example : splitext_root (lit "a.b.png") = lit "a.b" /\ splitext_root (lit ".png") = lit ".png" /\ splitext_root (lit "..png") = lit "..png" /\
  splitext_root (lit "png") = lit "png".
Proof. now vm_compute. Qed.

(** the same calls, but for the contents of the images *)
Definition same_calls (i j : shown_item) : Prop :=
  match i, j with
  | Line a, Line b => a = b
  | Image fn post alt _, Image fn' post' alt' _ => fn = fn' /\ post = post' /\ alt = alt'
  | _, _ => False
  end.
Definition content_of (i : shown_item) : list str := match i with Line _ => [] | Image _ _ _ c => [c] end.

Lemma line_inj sha name i j : (forall a b, length (sha a) = length (sha b)) -> same_calls i j ->
  (forall a b, In a (content_of i) -> In b (content_of j) -> sha a = sha b -> a = b) -> item_line sha name i = item_line sha name j -> i = j.
Proof.
  intros LEN S INJ E. destruct i as [a|fn post alt c], j as [b|fn' post' alt' c']; cbn [same_calls] in S; try contradiction; [now subst|].
  destruct S as (<- & <- & <-). f_equal. apply INJ; [now left|now left|]. cbn [item_line] in E.
  assert (G : forall (p q x y t : str), length x = length y -> p ++ x ++ t = q ++ y ++ t -> x = y).
  { intros p q x y t L H. rewrite !app_assoc in H. apply app_inv_tail in H. apply (f_equal (@rev _)) in H. rewrite !rev_app_distr in H.
    assert (K : forall (u v w z : str), length u = length v -> u ++ w = v ++ z -> u = v).
    { induction u as [|k u IH]; intros [|k' v] w z Lu Hu; try discriminate; [reflexivity|]. cbn [app] in Hu. injection Hu as -> Hu. f_equal. apply (IH _ w z); [now injection Lu|exact Hu]. }
    apply K in H; [|now rewrite !rev_length]. rewrite <- (rev_involutive x), H. apply rev_involutive. }
  set (A1 := match alt with Some a => a | None => splitext_root (sha c ++ post) end) in E. set (A2 := match alt with Some a => a | None => splitext_root (sha c' ++ post) end) in E.
  apply (G (lit "![" ++ A1 ++ lit "](" ++ name ++ [SLASH]) (lit "![" ++ A2 ++ lit "](" ++ name ++ [SLASH]) (sha c) (sha c') (post ++ lit ")")); [apply LEN|].
  rewrite <- !app_assoc. exact E.
Qed.
Lemma lines_inj sha name : (forall a b, length (sha a) = length (sha b)) -> forall is js, Forall2 same_calls is js ->
  (forall a b, In a (flat_map content_of is) -> In b (flat_map content_of js) -> sha a = sha b -> a = b) -> map (item_line sha name) is = map (item_line sha name) js -> is = js.
Proof.
  intros LEN. induction 1 as [|i j is js S F IH]; intros INJ E; [reflexivity|]. cbn [map] in E. injection E as E1 E2. cbn [flat_map] in INJ. f_equal.
  - apply (line_inj sha name); try assumption. intros a b A B. apply INJ; apply in_or_app; now left.
  - apply IH; [|exact E2]. intros a b A B. apply INJ; apply in_or_app; now right.
Qed.

Lemma tlns_written cc : forall ls a b, written cc a (map OTln ls) b -> b = a ++ lines_text ls.
Proof.
  induction ls as [|l ls IH]; intros a b W; cbn [map] in W; inversion W; subst; [now rewrite app_nil_r|].
  match goal with H : op_writes _ _ _ _ |- _ => inversion H; subst end. rewrite (IH _ _ ltac:(eassumption)). unfold lines_text. cbn [flat_map]. now rewrite <- !app_assoc.
Qed.

(** Accepting a test with images and running it again with the same calls: it is OK exactly when every image has the same content. *)
Theorem C109_image_changes_break cc sha name refloat old point point2 items items' s1 s2 :
  TokClassOK cc -> (forall a b, length (sha a) = length (sha b)) -> Forall2 same_calls items items' ->
  (forall a b, In a (flat_map content_of items) -> In b (flat_map content_of items') -> sha a = sha b -> a = b) ->
  Forall (fun l => ~ In NL l /\ ~ In CR l /\ nul_free l) (map (item_line sha name) items ++ map (item_line sha name) items') ->
  run_body cc refloat old point (map OTln (map (item_line sha name) items)) = Some s1 ->
  run_body cc refloat (Some (out s1)) point2 (map OTln (map (item_line sha name) items')) = Some s2 ->
  (verdict true s2 = OK <-> flat_map content_of items = flat_map content_of items').
Proof.
  intros TOK LEN S INJ F R1 R2. apply Forall_app in F as [F1 F2]. set (ls := map (item_line sha name) items) in *. set (ls' := map (item_line sha name) items') in *.
  assert (O1 : out s1 = lines_text ls).
  { destruct (run_body_written cc TOK refloat _ _ _ _ R1) as (W & N & E). apply tlns_written in W. cbn [app] in W. clear - W N E.
    assert (EN : lines_text ls = [] \/ exists x, lines_text ls = x ++ [NL]).
    { destruct ls as [|l r] using rev_ind; [now left|]. right. unfold lines_text. rewrite flat_map_app. cbn [flat_map]. rewrite app_nil_r, app_assoc. eauto. }
    destruct (out_line s1) as [|c t] using rev_ind; [now rewrite app_nil_r in W|]. exfalso. rewrite app_assoc in W. destruct EN as [EN|[x EN]]; rewrite EN in W; [apply app_eq_nil in W as [_ W]; discriminate W|].
    apply app_inj_tail in W as [_ ->]. apply N. apply in_or_app. right. now left. }
  assert (NC : ~ In CR (lines_text ls)).
  { unfold lines_text. intros I. apply in_flat_map in I as (l & IL & I). apply in_app_iff in I as [I|[I|[]]]; [|discriminate I]. rewrite Forall_forall in F1. destruct (F1 l IL) as (_ & X & _). exact (X I). }
  assert (SN : snapshot_lines (out s1) = ls).
  { rewrite O1, <- rlines_snapshot, univ_newlines_id by exact NC. apply rlines_text. eapply Forall_impl; [|exact F1]. intros x (X & _). exact X. }
  assert (LL : length ls = length ls') by (unfold ls, ls'; rewrite !map_length; clear - S; induction S; cbn [length]; congruence).
  rewrite (C11_ok_iff_equal_partial cc TOK refloat (out s1) point2 ls' s2); [|eapply Forall_impl; [|exact F2]; intros x (X & _ & Y); exact (conj X Y)|exact R2|rewrite SN; apply Nat.eq_le_incl; exact LL].
  rewrite SN. split.
  - intros E. now rewrite (lines_inj sha name LEN items items' S INJ E).
  - intros E. unfold ls, ls'. f_equal. clear - S E. induction S as [|i j is js S F IH]; [reflexivity|].
    destruct i as [a|fn post alt c], j as [b|fn' post' alt' c']; cbn [same_calls] in S; try contradiction; cbn [flat_map content_of app] in E.
    + subst b. f_equal. now apply IH.
    + destruct S as (<- & <- & <-). injection E as <- E. f_equal. now apply IH.
Qed.
Print Assumptions C109_image_changes_break.

(** Two images under one name, the second replaced by another picture. *)
Definition show_hash (s : str) : str := match s with c :: _ => [c; 46; c]%N | [] => lit "..." end.
Example C109_example :
  let items := [Line (lit "plots:"); Image (lit "plot.png") (lit ".png") (Some (lit "a plot")) (lit "A1"); Image (lit "plot.png") (lit ".png") None (lit "B1")] in
  let items' := [Line (lit "plots:"); Image (lit "plot.png") (lit ".png") (Some (lit "a plot")) (lit "A1"); Image (lit "plot.png") (lit ".png") None (lit "C2")] in
  Forall2 same_calls items items' /\
  show_items show_hash (lit "/w") (lit "books/.out/") (lit "t") items [] =
    Ret [lit "plots:"; lit "![a plot](t/A.A.png)"; lit "![B.B](t/B.B.png)"]
      [(lit "books/.out/t/B.B.png", lit "B1"); (lit "books/.out/t/A.A.png", lit "A1")] /\
  (forall fn h c, In (fn, h, c) (flat_map (image_names show_hash) items) -> plain_name fn /\ plain_name h /\ is_dir (path_join (lit "books/.out/") (lit "t") ++ SLASH :: h) [] = false) /\
  exists s1 s2, run_body ascii_class (fun _ => None) None false (map OTln (map (item_line show_hash (lit "t")) items)) = Some s1 /\
    run_body ascii_class (fun _ => None) (Some (out s1)) false (map OTln (map (item_line show_hash (lit "t")) items')) = Some s2 /\ verdict true s2 = DIFF.
Proof.
  split; [repeat constructor|]. split; [vm_compute; reflexivity|]. split.
  - intros fn h c I. vm_compute in I. destruct I as [[= <- <- <-]|[[= <- <- <-]|[]]]; vm_compute; intuition discriminate.
  - do 2 eexists. split; [vm_compute; reflexivity|]. split; [vm_compute; reflexivity|]. vm_compute. reflexivity.
Qed.
