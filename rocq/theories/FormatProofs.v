From Verif Require Import PyStrFacts FsFacts FormatModel.
From Coq Require Import Lia.

(** ** The index *)

(** a line of the index: a heading or a link, with its depth; or an empty line *)
Inductive item := IBlank | IHead (depth : nat) (title : str) | ILink (depth : nat) (text target : str).
Definition line_of (i : item) : str :=
  match i with
  | IBlank => []
  | IHead d t => repeat SP (4 * d) ++ lit " * " ++ t
  | ILink d t n => repeat SP (4 * d) ++ lit " * [" ++ t ++ lit "](" ++ n ++ lit ")"
  end.
(** the links with the titles of the headings above them, read in the way of nested lists *)
Fixpoint links (stack : list str) (doc : list item) : list (nat * list str * str * str) :=
  match doc with
  | [] => []
  | IBlank :: r => links stack r
  | IHead d t :: r => links (firstn d stack ++ [t]) r
  | ILink d t n :: r => (d, firstn d stack, t, n) :: links (firstn d stack) r
  end.

Definition heads i parts : list item := map (fun k => IHead (i + fst k) (snd k)) (combine (seq 0 (length parts)) parts).
Fixpoint items (domain : list str) (names : list str) : list item :=
  match names with
  | [] => []
  | name :: rest =>
      let parts := split_on SLASH name in
      let name_domain := firstn (length parts - 1) parts in
      let leaf := nth (length parts - 1) parts [] in
      let cut := common name_domain domain in
      (if parts_eqb name_domain domain then [] else IBlank :: heads cut (skipn cut name_domain))
      ++ ILink (length name_domain) leaf (name ++ lit ".md") :: items name_domain rest
  end.
Definition render (doc : list item) : str := flat_map (fun i => line_of i ++ [NL]) doc.

Lemma heads_cons i p ps : heads i (p :: ps) = IHead i p :: heads (S i) ps.
Proof.
  unfold heads. cbn [length seq combine map fst snd]. rewrite Nat.add_0_r. f_equal. rewrite <- seq_shift.
  generalize (seq 0 (length ps)). induction ps as [|q ps IH]; intros [|k l]; try reflexivity. cbn [map combine fst snd].
  rewrite IH. f_equal. f_equal. lia.
Qed.

Lemma headings_render ps : forall i, headings i ps = render (heads i ps).
Proof.
  induction ps as [|p ps IH]; intros i; [reflexivity|]. rewrite heads_cons. unfold render. cbn [headings flat_map line_of]. rewrite IH.
  unfold indent, render. now rewrite <- !app_assoc.
Qed.

Lemma body_render names : forall domain, index_body domain names = render (items domain names).
Proof.
  induction names as [|name names IH]; intros domain; [reflexivity|]. cbn [index_body items]. rewrite IH. unfold render. rewrite flat_map_app.
  f_equal.
  - destruct (parts_eqb _ _); [reflexivity|]. rewrite headings_render. reflexivity.
  - cbn [flat_map line_of]. unfold indent. rewrite <- !app_assoc. reflexivity.
Qed.

Lemma links_heads ps : forall stack i r, i <= length stack -> ps <> [] ->
  links stack (heads i ps ++ r) = links (firstn i stack ++ ps) r.
Proof.
  induction ps as [|p ps IH]; intros stack i r L N; [congruence|]. rewrite heads_cons. cbn [app links].
  destruct ps as [|q ps]; [reflexivity|].
  rewrite IH; [|rewrite app_length, firstn_length; cbn; lia|discriminate].
  f_equal. rewrite firstn_all2 by (rewrite app_length, firstn_length; cbn; lia). now rewrite <- app_assoc.
Qed.

Lemma common_le a : forall b, common a b <= length a /\ common a b <= length b.
Proof.
  induction a as [|x a IH]; intros [|y b]; cbn [common length]; try lia. destruct (str_eqb x y); [|lia].
  specialize (IH b). lia.
Qed.
Lemma common_eq a : forall b, firstn (common a b) a = firstn (common a b) b.
Proof.
  induction a as [|x a IH]; intros [|y b]; cbn [common]; try reflexivity. destruct (str_eqb_spec x y) as [->|]; [|reflexivity].
  cbn [firstn]. now rewrite IH.
Qed.

Lemma parts_eqb_eq a b : parts_eqb a b = true <-> a = b.
Proof. unfold parts_eqb. destruct (list_eq_dec (list_eq_dec N.eq_dec) a b); split; congruence. Qed.

Lemma firstn_removelast (l : list str) : firstn (length l - 1) l = removelast l.
Proof.
  destruct l as [|a l]; [reflexivity|]. rewrite (app_removelast_last [] (l := a :: l)) at 1 2 by discriminate.
  rewrite app_length. cbn [length]. replace (_ + 1 - 1) with (length (removelast (a :: l))) by lia.
  rewrite firstn_app, firstn_all, Nat.sub_diag. now rewrite app_nil_r.
Qed.
Lemma nth_last (l : list str) : nth (length l - 1) l [] = last l [].
Proof.
  destruct l as [|a l]; [reflexivity|]. rewrite (app_removelast_last [] (l := a :: l)) at 1 2 by discriminate.
  rewrite app_length. cbn [length]. replace (_ + 1 - 1) with (length (removelast (a :: l))) by lia.
  rewrite app_nth2 by apply le_n. now rewrite Nat.sub_diag.
Qed.

Definition entry (name : str) : nat * list str * str * str :=
  let dir := removelast (split_on SLASH name) in
  (length dir, dir, last (split_on SLASH name) [], name ++ lit ".md").

Lemma links_items names : forall domain, links domain (items domain names) = map entry names.
Proof.
  induction names as [|name names IH]; intros domain; [reflexivity|]. cbn [items map].
  rewrite nth_last, firstn_removelast. set (nd := removelast (split_on SLASH name)).
  assert (R : forall dom, firstn (length nd) dom = nd ->
            links dom (ILink (length nd) (last (split_on SLASH name) []) (name ++ lit ".md") :: items nd names) = entry name :: map entry names).
  { intros dom Ed. cbn [links]. rewrite Ed, IH. reflexivity. }
  destruct (parts_eqb nd domain) eqn:EP.
  - apply parts_eqb_eq in EP. apply R. rewrite <- EP. apply firstn_all.
  - cbn [app links]. pose proof (common_le nd domain) as [L1 L2]. pose proof (common_eq nd domain) as CE.
    destruct (skipn (common nd domain) nd) as [|p ps] eqn:SK.
    + cbn [heads app map combine length seq]. apply R.
      assert (LE : length nd <= common nd domain).
      { apply (f_equal (@length _)) in SK. rewrite skipn_length in SK. cbn in SK. unfold str, char in *. lia. }
      replace (length nd) with (common nd domain) by (unfold str, char in *; lia). rewrite <- CE. apply firstn_all2. exact LE.
    + rewrite links_heads by (try assumption; discriminate). rewrite <- CE, <- SK, firstn_skipn. apply R. apply firstn_all.
Qed.

(** reading the index as text: the lines with a bullet, by the number of spaces before it *)
Definition read_line (l : str) : option (nat * str) :=
  let (sp, rest) := span (N.eqb SP) l in
  match rest with
  | c :: r => if N.eqb c 42 && starts_with [SP] r then Some (length sp / 4, skipn 1 r) else None
  | [] => None
  end.
Fixpoint read_lines (stack : list str) (ls : list str) : list (nat * list str * str) :=
  match ls with
  | [] => []
  | l :: r => match read_line l with
              | None => read_lines stack r
              | Some (d, t) => if starts_with (lit "[") t then (d, firstn d stack, t) :: read_lines (firstn d stack) r
                               else read_lines (firstn d stack ++ [t]) r
              end
  end.

Lemma read_bullet d t : read_line (repeat SP (4 * d) ++ lit " * " ++ t) = Some (d, t).
Proof.
  unfold read_line. change (lit " * " ++ t) with (repeat SP 1 ++ (42%N :: SP :: t)). rewrite app_assoc, <- repeat_app.
  rewrite span_unique.
  - cbn [N.eqb Pos.eqb]. change (42 =? 42)%N with true. cbn [andb starts_with skipn]. rewrite N.eqb_refl. cbn [andb].
    rewrite repeat_length. f_equal. f_equal. rewrite Nat.mul_comm, Nat.div_add_l by lia. cbn. lia.
  - apply Forall_forall. intros c I. apply repeat_spec in I. subst c. apply N.eqb_refl.
  - reflexivity.
Qed.

Lemma read_doc doc : forall stack,
  Forall (fun i => match i with IHead _ t => starts_with (lit "[") t = false | _ => True end) doc ->
  read_lines stack (map line_of doc) =
  map (fun e => match e with (d, dir, t, n) => (d, dir, lit "[" ++ t ++ lit "](" ++ n ++ lit ")") end) (links stack doc).
Proof.
  induction doc as [|i doc IH]; intros stack F; [reflexivity|]. inversion F as [|? ? Hi Fd]; subst. cbn [map read_lines].
  destruct i as [|d t|d t n]; cbn [line_of links].
  - cbn [read_line span]. now apply IH.
  - rewrite read_bullet, Hi. now apply IH.
  - change (lit " * [" ++ t ++ lit "](" ++ n ++ lit ")") with (lit " * " ++ (lit "[" ++ t ++ lit "](" ++ n ++ lit ")")).
    rewrite read_bullet. change (starts_with (lit "[") (lit "[" ++ t ++ lit "](" ++ n ++ lit ")")) with true. cbn match. cbn [map]. now rewrite IH.
Qed.

Lemma split_render doc tail : Forall (fun i => ~ In NL (line_of i)) doc ->
  split_on NL (render doc ++ tail) = map line_of doc ++ split_on NL tail.
Proof.
  unfold render. induction 1 as [|i doc Hi _ IH]; [reflexivity|]. cbn [flat_map map app]. rewrite <- !app_assoc. cbn [app].
  rewrite split_on_app by assumption. now rewrite IH.
Qed.

Lemma not_In_app (c : char) a b : ~ In c a -> ~ In c b -> ~ In c (a ++ b).
Proof. intros HA HB I. apply in_app_or in I. tauto. Qed.

Lemma no_nl_lit s : forallb (fun c => negb (N.eqb c NL)) s = true -> ~ In NL s.
Proof. rewrite forallb_forall. intros H I. apply H in I. rewrite N.eqb_refl in I. discriminate. Qed.
Lemma no_nl_indent n : ~ In NL (repeat SP n).
Proof. intros I. apply repeat_spec in I. discriminate. Qed.

Lemma part_chars c name p : In p (split_on SLASH name) -> In c p -> In c name.
Proof.
  intros IP IC. rewrite <- (join_split SLASH name). generalize dependent (split_on SLASH name). intros l.
  induction l as [|q l IH]; [easy|]. intros [->|I].
  - destruct l; cbn [join_with]; [assumption|]. apply in_or_app. now left.
  - specialize (IH I). destruct l; [destruct I|]. rewrite join_cons by discriminate. apply in_or_app. right. right. exact IH.
Qed.

Lemma In_removelast (l : list str) x : In x (removelast l) -> In x l.
Proof.
  destruct l as [|a l]; [easy|]. intros I. rewrite (app_removelast_last [] (l := a :: l)) by discriminate. apply in_or_app. now left.
Qed.

Lemma heads_In i ps it : In it (heads i ps) -> exists d t, it = IHead d t /\ In t ps.
Proof.
  unfold heads. rewrite in_map_iff. intros [[k t] [<- I]]. apply in_combine_r in I. eauto.
Qed.
Lemma In_skipn {A} n : forall (l : list A) x, In x (skipn n l) -> In x l.
Proof. induction n; intros [|a l] x; cbn; auto. Qed.

Lemma items_ok names : forall domain,
  Forall (fun n => ~ In NL n) names ->
  Forall (fun n => Forall (fun p => starts_with (lit "[") p = false) (removelast (split_on SLASH n))) names ->
  Forall (fun i => ~ In NL (line_of i)) (items domain names) /\
  Forall (fun i => match i with IHead _ t => starts_with (lit "[") t = false | _ => True end) (items domain names).
Proof.
  induction names as [|name names IH]; intros domain F G; [split; constructor|].
  inversion F as [|? ? Hn Fn]; subst. inversion G as [|? ? Gn GG]; subst. cbn [items]. rewrite nth_last, firstn_removelast.
  set (nd := removelast (split_on SLASH name)) in *. destruct (IH nd Fn GG) as [I1 I2].
  assert (PN : forall p, In p (split_on SLASH name) -> ~ In NL p) by (intros p Ip Inl; apply Hn; eapply part_chars; eassumption).
  assert (LN : ~ In NL (last (split_on SLASH name) [])).
  { apply PN. rewrite (app_removelast_last [] (l := split_on SLASH name)) at 2 by apply split_on_nonempty. apply in_or_app. right. now left. }
  assert (HH : forall it, In it (if parts_eqb nd domain then [] else IBlank :: heads (common nd domain) (skipn (common nd domain) nd)) ->
               it = IBlank \/ exists d t, it = IHead d t /\ In t nd).
  { intros it. destruct (parts_eqb nd domain); [easy|]. intros [<-|I]; [now left|]. right. apply heads_In in I.
    destruct I as (d & t & -> & I). exists d, t. split; [reflexivity|]. now apply In_skipn in I. }
  split; (apply Forall_app; split; [|constructor]); try assumption.
  - apply Forall_forall. intros it I. apply HH in I. destruct I as [->|(d & t & -> & I)]; cbn [line_of]; [easy|].
    apply not_In_app; [apply no_nl_indent|]. apply not_In_app; [now apply no_nl_lit|]. apply PN. now apply In_removelast.
  - cbn [line_of]. repeat (apply not_In_app); try assumption; try apply no_nl_indent; now apply no_nl_lit.
  - apply Forall_forall. intros it I. apply HH in I. destruct I as [->|(d & t & -> & I)]; [easy|].
    rewrite Forall_forall in Gn. now apply Gn.
  - exact Logic.I.
Qed.

(** ** clean *)
Lemma live_In root names x : root <> [] -> ends_with [SLASH] root = false ->
  Forall (fun n => n <> [] /\ starts_with [SLASH] n = false) names ->
  (In x (live root names) <-> x = root ++ SLASH :: lit "index.md" \/
                              exists n, In n names /\ (x = root ++ SLASH :: n ++ lit ".md" \/ x = root ++ SLASH :: n ++ [SLASH])).
Proof.
  intros HR HE HN. unfold live. rewrite in_app_iff, in_flat_map.
  assert (PJ : forall n s, In n names -> path_join root (n ++ s) = root ++ SLASH :: n ++ s).
  { intros n s I. rewrite Forall_forall in HN. destruct (HN n I) as [N1 N2]. rewrite path_join_plain; [reflexivity|assumption..|].
    destruct n; [congruence|exact N2]. }
  rewrite path_join_plain by (try assumption; reflexivity). split.
  - intros [(n & I & [<-|[<-|[]]])|[<-|[]]].
    + right. exists n. rewrite PJ by assumption. auto.
    + right. exists n. rewrite PJ by assumption. auto.
    + left. reflexivity.
  - intros [->|(n & I & [->| ->])].
    + right. left. reflexivity.
    + left. exists n. split; [assumption|]. left. now apply PJ.
    + left. exists n. split; [assumption|]. right. left. now apply (PJ n (lit "/")).
Qed.

Lemma is_garbage_iff ng file : is_garbage ng file = true <->
  forall x, In x ng -> x <> file /\ ~ (ends_with [SLASH] x = true /\ exists r, file = x ++ r).
Proof.
  unfold is_garbage. rewrite Bool.negb_true_iff. split.
  - intros H x I. assert (E : str_eqb x file || (ends_with [SLASH] x && starts_with x file) = false).
    { apply Bool.not_true_is_false. intros T. rewrite <- Bool.not_true_iff_false in H. apply H. apply existsb_exists. eauto. }
    apply Bool.orb_false_iff in E. destruct E as [E1 E2]. split; [now apply str_eqb_neq|]. intros [E3 E4].
    apply starts_with_iff in E4. rewrite E3, E4 in E2. discriminate.
  - intros H. apply Bool.not_true_is_false. rewrite existsb_exists. intros (x & I & T). destruct (H x I) as [H1 H2].
    apply Bool.orb_true_iff in T. destruct T as [T|T]; [now apply str_eqb_eq in T|]. apply Bool.andb_true_iff in T. destruct T as [T1 T2].
    apply H2. split; [assumption|]. now apply starts_with_iff.
Qed.

Lemma garbage_iff root names f p : root <> [] -> ends_with [SLASH] root = false ->
  Forall (fun n => n <> [] /\ starts_with [SLASH] n = false) names ->
  (In p (garbage root names f) <->
   (exists c, lookup p f = Some c) /\ below root p = true /\ p <> root ++ SLASH :: lit "index.md" /\
   forall n, In n names -> p <> root ++ SLASH :: n ++ lit ".md" /\ below (root ++ SLASH :: n) p = false).
Proof.
  intros HR HE HN. unfold garbage, walk_files. rewrite filter_In, in_map_iff, is_garbage_iff. split.
  - intros [[[q c] [EQ I]] G]. cbn [fst] in EQ. subst q. apply filter_In in I. destruct I as [I B]. cbn [fst] in B.
    split; [|split; [assumption|split]].
    + apply In_lookup in I. destruct I as [d ->]. eauto.
    + intros ->. edestruct G as [X _]; [apply live_In; try assumption; now left|now apply X].
    + intros n In_. split.
      * intros ->. edestruct G as [X _]; [apply live_In; try assumption; right; exists n; split; [assumption|now left]|now apply X].
      * apply Bool.not_true_is_false. intros BT. apply below_iff in BT. destruct BT as [r ->].
        destruct (G (root ++ SLASH :: n ++ [SLASH])) as [_ G2]; [apply live_In; try assumption; right; exists n; split; [assumption|now right]|].
        apply G2. split.
        -- apply ends_with_iff. exists (root ++ SLASH :: n). rewrite <- app_assoc. reflexivity.
        -- exists r. rewrite <- !app_assoc. cbn [app]. rewrite <- app_assoc. reflexivity.
  - intros [[c L] [B [NI NN]]]. split.
    + apply lookup_In in L. exists (p, c). split; [reflexivity|]. apply filter_In. auto.
    + intros x I. apply live_In in I; try assumption. destruct I as [->|(n & I & [->| ->])].
      * split; [congruence|]. intros [E _]. apply ends_with_iff in E. destruct E as [r E].
        apply (f_equal (@rev _)) in E. rewrite !rev_app_distr in E. cbn in E. discriminate.
      * destruct (NN n I) as [N1 N2]. split; [congruence|]. intros [E _]. apply ends_with_iff in E. destruct E as [r E].
        apply (f_equal (@rev _)) in E. rewrite !rev_app_distr in E. cbn [rev app] in E. rewrite !rev_app_distr in E. discriminate.
      * destruct (NN n I) as [N1 N2].
        assert (NB : forall r, p <> (root ++ SLASH :: n ++ [SLASH]) ++ r).
        { intros r ->. rewrite <- Bool.not_true_iff_false in N2. apply N2. apply below_iff. exists r.
          rewrite <- !app_assoc. cbn [app]. rewrite <- app_assoc. reflexivity. }
        split; [|intros [_ [r E]]; exact (NB r E)]. intros E. apply (NB []). now rewrite app_nil_r.
Qed.

Lemma clean_lookup root names f p :
  lookup p (clean root names f) = if str_mem p (garbage root names f) then None else lookup p f.
Proof.
  unfold clean. generalize (garbage root names f). intros g. revert f. induction g as [|q g IH]; intros f; [reflexivity|].
  cbn [fold_left]. rewrite IH, lookup_remove. unfold str_mem. cbn [existsb]. rewrite (str_eqb_sym q p).
  destruct (str_eqb p q); cbn [orb]; [now destruct (existsb _ g)|reflexivity].
Qed.

(** ** rel_path *)
Lemma join_app2 sep a b : a <> [] -> b <> [] -> join_with sep (a ++ b) = join_with sep a ++ sep ++ join_with sep b.
Proof.
  induction a as [|p a IH]; [congruence|]. intros _ Hb. destruct a as [|q a]; [exact (join_cons sep p b Hb)|].
  cbn [app]. rewrite (join_cons sep p (q :: a)) by discriminate. etransitivity; [apply (join_cons sep p); discriminate|].
  cbn [app] in IH. rewrite IH by (discriminate || assumption). now rewrite <- !app_assoc.
Qed.

Lemma split_on_app2 sep a b : split_on sep (a ++ sep :: b) = split_on sep a ++ split_on sep b.
Proof.
  rewrite <- (join_split sep a) at 1. rewrite <- (join_split sep b) at 1.
  change (sep :: ?x) with ([sep] ++ x). rewrite <- join_app2 by apply split_on_nonempty.
  apply split_join.
  - pose proof (split_on_nonempty sep a). destruct (split_on sep a); [congruence|discriminate].
  - apply Forall_app. split; apply split_on_parts.
Qed.

(** a component that is neither empty nor special *)
Definition plain_part (p : str) : Prop := p <> [] /\ p <> lit "." /\ p <> lit ".." /\ ~ In SLASH p.

Lemma norm_plain ab ns : forall acc, Forall plain_part ns -> norm_parts ab ns acc = rev acc ++ ns.
Proof.
  induction ns as [|n ns IH]; intros acc F; cbn [norm_parts]; [now rewrite app_nil_r|].
  inversion F as [|? ? (N1 & N2 & N3 & N4) Fn]; subst. apply str_eqb_neq in N2, N3. rewrite N2, N3.
  destruct n as [|c n]; [congruence|]. cbn [orb]. rewrite IH by assumption. cbn [rev]. now rewrite <- app_assoc.
Qed.
Lemma norm_app ab ns ps : forall acc, Forall plain_part ns -> norm_parts ab (ps ++ ns) acc = norm_parts ab ps acc ++ ns.
Proof.
  induction ps as [|p ps IH]; intros acc F; cbn [app norm_parts]; [now apply norm_plain|].
  destruct (_ || _); [now apply IH|]. destruct (str_eqb p (lit "..")); [|now apply IH].
  destruct acc as [|q acc]; [destruct ab; now apply IH|]. destruct (str_eqb q (lit "..")); now apply IH.
Qed.
Lemma norm_nil ab ps : forall acc, norm_parts ab (ps ++ [[]]) acc = norm_parts ab ps acc.
Proof.
  induction ps as [|p ps IH]; intros acc; cbn [app norm_parts]; [reflexivity|].
  destruct (_ || _); [now apply IH|]. destruct (str_eqb p (lit "..")); [|now apply IH].
  destruct acc as [|q acc]; [destruct ab; now apply IH|]. destruct (str_eqb q (lit "..")); now apply IH.
Qed.

Definition raw (cwd p : str) : str := if starts_with [SLASH] p then p else path_join cwd p.

Lemma starts_slash_app a b : a <> [] -> starts_with [SLASH] (a ++ b) = starts_with [SLASH] a.
Proof. destruct a; [congruence|]. reflexivity. Qed.
Lemma ends_slash_app a b : b <> [] -> ends_with [SLASH] (a ++ b) = ends_with [SLASH] b.
Proof.
  intros N. destruct (ends_with [SLASH] b) eqn:E.
  - apply ends_with_iff in E. destruct E as [r ->]. apply ends_with_iff. exists (a ++ r). now rewrite app_assoc.
  - rewrite <- Bool.not_true_iff_false in E |- *. intros T. apply E. apply ends_with_iff in T. destruct T as [r T].
    destruct (exists_last N) as [b' [c ->]]. rewrite app_assoc in T. apply app_inj_tail in T. destruct T as [_ ->].
    apply ends_with_iff. now exists b'.
Qed.

Definition slashed (a : str) : str := if ends_with [SLASH] a then a else a ++ [SLASH].
Lemma path_join_nonempty a b : starts_with [SLASH] b = false -> a <> [] -> path_join a b = slashed a ++ b.
Proof.
  intros Hb Ha. unfold path_join, slashed. rewrite Hb. destruct a; [congruence|]. destruct (ends_with _ _); [reflexivity|]. now rewrite <- app_assoc.
Qed.
Lemma slashed_nonempty a : slashed a <> [].
Proof.
  unfold slashed. destruct (ends_with [SLASH] a) eqn:E; [intros ->; discriminate|]. destruct a; discriminate.
Qed.
Lemma slashed_start a : a <> [] -> starts_with [SLASH] (slashed a) = starts_with [SLASH] a.
Proof. intros N. unfold slashed. destruct (ends_with _ _); [reflexivity|]. now apply starts_slash_app. Qed.
Lemma slashed_app a b : b <> [] -> slashed (a ++ b) = a ++ slashed b.
Proof. intros N. unfold slashed. rewrite ends_slash_app by assumption. destruct (ends_with _ _); [reflexivity|]. now rewrite app_assoc. Qed.
Lemma slashed_twice a : slashed (slashed a) = slashed a.
Proof.
  unfold slashed at 2 3. destruct (ends_with [SLASH] a) eqn:E; [unfold slashed; now rewrite E|].
  unfold slashed. now rewrite ends_slash_app by discriminate.
Qed.

Lemma raw_join cwd out r : starts_with [SLASH] cwd = true -> starts_with [SLASH] r = false ->
  raw cwd (path_join out r) = path_join (raw cwd out) r.
Proof.
  intros HC HR. assert (NC : cwd <> []) by (intros ->; discriminate). unfold raw.
  destruct out as [|c out].
  - change (starts_with [SLASH] []) with false. cbn match. assert (EJ : path_join [] r = r) by (unfold path_join; now rewrite HR).
    rewrite EJ, HR. rewrite !(path_join_nonempty cwd) by (reflexivity || assumption). rewrite app_nil_r.
    rewrite path_join_nonempty by (assumption || apply slashed_nonempty). now rewrite slashed_twice.
  - set (o := c :: out) in *. assert (NO : o <> []) by discriminate. rewrite (path_join_nonempty o) by assumption.
    rewrite starts_slash_app, slashed_start by (assumption || apply slashed_nonempty).
    destruct (starts_with [SLASH] o) eqn:SO; [now rewrite path_join_nonempty|].
    rewrite !(path_join_nonempty cwd); try assumption.
    2:{ now rewrite starts_slash_app, slashed_start by (assumption || apply slashed_nonempty). }
    rewrite path_join_nonempty; [|assumption|].
    2:{ pose proof (slashed_nonempty cwd). destruct (slashed cwd); [congruence|discriminate]. }
    rewrite slashed_app by assumption. now rewrite <- !app_assoc.
Qed.

Lemma init_join o r : starts_with [SLASH] o = true -> starts_with [SLASH] r = false ->
  initial_slashes (path_join o r) = initial_slashes o.
Proof.
  intros HO HR. rewrite path_join_nonempty; [|assumption|intros ->; discriminate].
  destruct o as [|a o]; [discriminate|]. cbn [starts_with] in HO. apply Bool.andb_true_iff in HO. destruct HO as [HA _].
  apply N.eqb_eq in HA. subst a. destruct o as [|b o].
  - change (slashed [SLASH]) with [SLASH]. unfold initial_slashes.
    destruct r as [|c r]; [reflexivity|]. cbn [starts_with] in HR. cbn [app]. change (lit "//") with [SLASH; SLASH]. cbn [starts_with].
    rewrite Bool.andb_true_r in HR. rewrite HR. reflexivity.
  - destruct o as [|c o].
    + destruct (N.eqb_spec SLASH b) as [<-|NB].
      * change (slashed [SLASH; SLASH]) with [SLASH; SLASH]. unfold initial_slashes.
        destruct r as [|c r]; [reflexivity|]. cbn [starts_with] in HR. cbn [app]. change (lit "//") with [SLASH; SLASH].
        change (lit "///") with [SLASH; SLASH; SLASH]. cbn [starts_with].
        rewrite Bool.andb_true_r in HR. rewrite HR. reflexivity.
      * apply N.eqb_neq in NB. unfold initial_slashes. change (lit "//") with [SLASH; SLASH].
        change (lit "///") with [SLASH; SLASH; SLASH].
        unfold slashed. destruct (ends_with [SLASH] [SLASH; b]); cbn [app starts_with]; rewrite NB; reflexivity.
    + unfold initial_slashes. change (lit "//") with [SLASH; SLASH]. change (lit "///") with [SLASH; SLASH; SLASH].
      unfold slashed. destruct (ends_with [SLASH] (SLASH :: b :: c :: o)); reflexivity.
Qed.

Lemma init_abs o : starts_with [SLASH] o = true -> initial_slashes o = lit "/" \/ initial_slashes o = lit "//".
Proof. intros H. unfold initial_slashes. destruct (_ && _); [now right|]. change (lit "/") with [SLASH]. rewrite H. now left. Qed.

Lemma normpath_abs o : starts_with [SLASH] o = true ->
  normpath o = initial_slashes o ++ join_with [SLASH] (norm_parts true (split_on SLASH o) []).
Proof.
  intros H. unfold normpath. destruct o as [|c o]; [discriminate|]. destruct (init_abs _ H) as [-> | ->]; reflexivity.
Qed.

Lemma raw_abs cwd p : starts_with [SLASH] cwd = true -> starts_with [SLASH] (raw cwd p) = true.
Proof.
  intros H. unfold raw. destruct (starts_with [SLASH] p) eqn:E; [assumption|].
  rewrite path_join_nonempty; [|assumption|intros ->; discriminate].
  rewrite starts_slash_app by apply slashed_nonempty. rewrite slashed_start; [assumption|intros ->; discriminate].
Qed.

Lemma split_join_parts o ns : o <> [] -> ns <> [] -> Forall plain_part ns ->
  norm_parts true (split_on SLASH (path_join o (join_with [SLASH] ns))) [] = norm_parts true (split_on SLASH o) [] ++ ns.
Proof.
  intros NO NN F.
  assert (HR : starts_with [SLASH] (join_with [SLASH] ns) = false).
  { destruct ns as [|n ns]; [congruence|]. inversion F as [|? ? (N1 & _ & _ & N4) _]; subst.
    destruct n as [|c n]; [congruence|]. assert (NC : c <> SLASH) by (intros ->; apply N4; now left).
    destruct ns; cbn [join_with app starts_with]; rewrite (proj2 (N.eqb_neq _ _)) by congruence; reflexivity. }
  assert (SN : split_on SLASH (join_with [SLASH] ns) = ns).
  { apply split_join; [assumption|]. revert F. apply Forall_impl. intros p (_ & _ & _ & H). exact H. }
  rewrite path_join_nonempty by assumption. unfold slashed. destruct (ends_with [SLASH] o) eqn:EO.
  - apply ends_with_iff in EO. destruct EO as [o' ->]. rewrite <- app_assoc. cbn [app]. rewrite !split_on_app2, SN.
    rewrite norm_app by assumption. cbn [split_on]. now rewrite norm_nil.
  - rewrite <- app_assoc. cbn [app]. rewrite split_on_app2, SN. now apply norm_app.
Qed.

(** the absolute path of a file below a directory *)
Lemma abspath_join cwd out ns : starts_with [SLASH] cwd = true -> ns <> [] -> Forall plain_part ns ->
  abspath cwd out <> lit "/" -> abspath cwd out <> lit "//" ->
  abspath cwd (path_join out (join_with [SLASH] ns)) = abspath cwd out ++ [SLASH] ++ join_with [SLASH] ns.
Proof.
  intros HC NN F N1 N2.
  assert (HR : starts_with [SLASH] (join_with [SLASH] ns) = false).
  { destruct ns as [|n ns]; [congruence|]. inversion F as [|? ? (M1 & _ & _ & M4) _]; subst.
    destruct n as [|c n]; [congruence|]. assert (NC : c <> SLASH) by (intros ->; apply M4; now left).
    destruct ns; cbn [join_with app starts_with]; rewrite (proj2 (N.eqb_neq _ _)) by congruence; reflexivity. }
  unfold abspath in *. fold (raw cwd out) in *. fold (raw cwd (path_join out (join_with [SLASH] ns))). rewrite raw_join by assumption.
  pose proof (raw_abs cwd out HC) as RA. set (o := raw cwd out) in *. assert (NO : o <> []) by (intros E; rewrite E in RA; discriminate).
  rewrite normpath_abs in N1, N2 by assumption. rewrite (normpath_abs o) by assumption.
  assert (RA' : starts_with [SLASH] (path_join o (join_with [SLASH] ns)) = true).
  { rewrite path_join_nonempty by assumption. rewrite starts_slash_app by apply slashed_nonempty. now rewrite slashed_start. }
  rewrite normpath_abs by assumption. rewrite init_join, split_join_parts by assumption.
  assert (PN : norm_parts true (split_on SLASH o) [] <> []).
  { intros E. rewrite E in N1, N2. cbn [join_with] in N1, N2. rewrite app_nil_r in N1, N2. destruct (init_abs o RA); congruence. }
  rewrite join_app2 by assumption. now rewrite <- app_assoc.
Qed.

Lemma rel_path_below cwd out file r :
  abspath cwd file = abspath cwd out ++ [SLASH] ++ r -> rel_path cwd out file = Some r.
Proof.
  intros E. unfold rel_path. rewrite E. rewrite firstn_app, firstn_all, Nat.sub_diag. cbn [firstn]. rewrite app_nil_r, str_eqb_refl.
  f_equal. rewrite app_assoc. replace (length (abspath cwd out) + 1) with (length (abspath cwd out ++ [SLASH])) by (rewrite app_length; reflexivity).
  rewrite skipn_app, skipn_all, Nat.sub_diag. reflexivity.
Qed.

Lemma rel_path_none cwd out file : rel_path cwd out file = None <-> ~ exists r, abspath cwd file = abspath cwd out ++ r.
Proof.
  unfold rel_path. destruct (str_eqb_spec (firstn (length (abspath cwd out)) (abspath cwd file)) (abspath cwd out)) as [E|N].
  - split; [discriminate|]. intros H. exfalso. apply H. exists (skipn (length (abspath cwd out)) (abspath cwd file)).
    etransitivity; [symmetry; apply (firstn_skipn (length (abspath cwd out)))|]. now rewrite E at 1.
  - split; [|reflexivity]. intros _ [r E]. apply N. rewrite E. rewrite firstn_app, firstn_all, Nat.sub_diag. cbn [firstn]. apply app_nil_r.
Qed.

(** ** Where a path leads: the directory [p], given by the names from the root, followed by components [cs], is [q]. *)
Inductive leads : list str -> list str -> list str -> Prop :=
| leads_end p : leads p [] p
| leads_stay p c cs q : c = [] \/ c = lit "." -> leads p cs q -> leads p (c :: cs) q
| leads_up p n cs q : leads p cs q -> leads (p ++ [n]) (lit ".." :: cs) q
| leads_top cs q : leads [] cs q -> leads [] (lit ".." :: cs) q
| leads_down p c cs q : c <> [] -> c <> lit "." -> c <> lit ".." -> leads (p ++ [c]) cs q -> leads p (c :: cs) q.

Lemma leads_norm p cs q : leads p cs q -> forall acc, p = rev acc -> Forall (fun c => c <> lit "..") acc -> norm_parts true cs acc = q.
Proof.
  induction 1 as [p|p c cs q H L IH|p n cs q L IH|cs q L IH|p c cs q N1 N2 N3 L IH]; intros acc E F.
  - now rewrite E.
  - cbn [norm_parts]. destruct H as [-> | ->]; cbn [orb]; [now apply IH|]. rewrite str_eqb_refl. rewrite Bool.orb_true_r. now apply IH.
  - change (norm_parts true (lit ".." :: cs) acc) with
      (match acc with [] => norm_parts true cs acc
       | q :: acc' => if str_eqb q (lit "..") then norm_parts true cs (lit ".." :: acc) else norm_parts true cs acc' end).
    destruct acc as [|m acc]; [cbn [rev] in E; destruct p; discriminate|]. cbn [rev] in E. apply app_inj_tail in E. destruct E as [-> ->].
    inversion F as [|? ? Fm Fa]; subst. apply str_eqb_neq in Fm. rewrite Fm. now apply IH.
  - change (norm_parts true (lit ".." :: cs) acc) with
      (match acc with [] => norm_parts true cs acc
       | q :: acc' => if str_eqb q (lit "..") then norm_parts true cs (lit ".." :: acc) else norm_parts true cs acc' end).
    destruct acc as [|m acc]; [now apply IH|]. cbn [rev] in E. destruct (rev acc); discriminate.
  - cbn [norm_parts]. pose proof N2 as M2. pose proof N3 as M3. apply str_eqb_neq in M2, M3. rewrite M2, M3. destruct c as [|x c]; [congruence|]. cbn [orb].
    apply IH; [cbn [rev]; now rewrite E|]. now constructor.
Qed.
Lemma leads_app p cs q ds r : leads p cs q -> leads q ds r -> leads p (cs ++ ds) r.
Proof.
  induction 1 as [p|p c cs q H L IH|p n cs q L IH|cs q L IH|p c cs q N1 N2 N3 L IH]; intros D; cbn [app]; [assumption| | | |].
  - apply leads_stay; auto.
  - apply leads_up; auto.
  - apply leads_top; auto.
  - apply leads_down; auto.
Qed.
Lemma leads_unsplit p cs q : leads p (cs ++ [[]]) q -> leads p cs q.
Proof.
  remember (cs ++ [[]]) as ds eqn:E. intros L. revert cs E.
  induction L as [p|p c ds q H L IH|p n ds q L IH|ds q L IH|p c ds q N1 N2 N3 L IH]; intros cs E.
  - destruct cs; discriminate.
  - destruct cs as [|x cs]; cbn [app] in E; injection E as -> ->.
    + exact L.
    + apply leads_stay; auto.
  - destruct cs as [|x cs]; cbn [app] in E; [discriminate|]. inversion E; subst. apply leads_up; auto.
  - destruct cs as [|x cs]; cbn [app] in E; [discriminate|]. inversion E; subst. apply leads_top; auto.
  - destruct cs as [|x cs]; cbn [app] in E; [injection E as -> ->; congruence|]. inversion E; subst. apply leads_down; auto.
Qed.
Lemma leads_total cs : forall p, exists q, leads p cs q.
Proof.
  induction cs as [|c cs IH]; intros p; [eexists; apply leads_end|].
  destruct (str_eqb_spec c []) as [->|N1]; [destruct (IH p) as [q L]; exists q; apply leads_stay; auto|].
  destruct (str_eqb_spec c (lit ".")) as [->|N2]; [destruct (IH p) as [q L]; exists q; apply leads_stay; auto|].
  destruct (str_eqb_spec c (lit "..")) as [->|N3].
  - destruct (list_eq_dec (list_eq_dec N.eq_dec) p []) as [->|NP]; [destruct (IH []) as [q L]; exists q; now apply leads_top|].
    destruct (exists_last NP) as [p' [n ->]]. destruct (IH p') as [q L]. exists q. now apply leads_up.
  - destruct (IH (p ++ [c])) as [q L]. exists q. now apply leads_down.
Qed.

(** [path] names the place [q] when the working directory is [cwd] *)
Definition place (cwd path : str) (q : list str) : Prop :=
  if starts_with [SLASH] path then leads [] (split_on SLASH path) q
  else exists w, leads [] (split_on SLASH cwd) w /\ leads w (split_on SLASH path) q.

Lemma place_total cwd path : exists q, place cwd path q.
Proof.
  unfold place. destruct (starts_with _ _); [apply leads_total|]. destruct (leads_total (split_on SLASH cwd) []) as [w L].
  destruct (leads_total (split_on SLASH path) w) as [q M]. eauto.
Qed.
Lemma place_raw cwd path q : cwd <> [] -> place cwd path q -> leads [] (split_on SLASH (raw cwd path)) q.
Proof.
  intros NC. unfold place, raw. destruct (starts_with [SLASH] path) eqn:E; [auto|]. intros [w [L M]].
  rewrite path_join_nonempty by assumption. unfold slashed. destruct (ends_with [SLASH] cwd) eqn:EC.
  - apply ends_with_iff in EC. destruct EC as [c ->]. rewrite <- app_assoc. cbn [app]. rewrite split_on_app2. rewrite split_on_app2 in L.
    cbn [split_on] in L. apply leads_unsplit in L. now apply leads_app with w.
  - rewrite <- app_assoc. cbn [app]. rewrite split_on_app2. now apply leads_app with w.
Qed.

Lemma place_abspath cwd path q : starts_with [SLASH] cwd = true -> starts_with (lit "//") cwd = false -> starts_with (lit "//") path = false ->
  place cwd path q -> abspath cwd path = [SLASH] ++ join_with [SLASH] q.
Proof.
  intros HC NC NP P. unfold abspath. fold (raw cwd path). assert (cwd <> []) by (intros ->; discriminate).
  rewrite normpath_abs by now apply raw_abs. rewrite (leads_norm _ _ _ (place_raw _ _ _ H P) []); [|reflexivity|constructor].
  f_equal. assert (I : forall x, starts_with [SLASH] x = true -> starts_with (lit "//") x = false -> initial_slashes x = [SLASH]).
  { intros x X1 X2. unfold initial_slashes. rewrite X2. change (lit "/") with [SLASH]. now rewrite X1. }
  unfold raw. destruct (starts_with [SLASH] path) eqn:E; [now apply I|]. rewrite init_join by assumption. now apply I.
Qed.
