(** C142: files and temporary files of a test case. *)
From Verif Require Import PyStrFacts FsFacts TmpModel ShellProps.
From Coq Require Import Lia.

(** ** What the calls made so far amount to *)
Definition makes (n : str) (x : tcall) : Prop := x = TmpDir n \/ exists c, x = TmpFile n c.
Definition made (h : list tcall) (n : str) : Prop := exists x, In x h /\ makes n x.
(** the first call for the name made a directory *)
Definition dir_in (h : list tcall) (n : str) : Prop := exists b a, h = b ++ TmpDir n :: a /\ ~ made b n.
(** the last text written to the temporary file *)
Definition wrote (h : list tcall) (n c : str) : Prop := ~ dir_in h n /\ exists b a, h = b ++ TmpFile n c :: a /\ forall x, ~ In (TmpFile n x) a.
(** the last text written to the file *)
Definition kept (h : list tcall) (n c : str) : Prop := exists b a, h = b ++ CaseFile n c :: a /\ forall x, ~ In (CaseFile n x) a.

Definition call_name (x : tcall) : str := match x with TmpDir n | TmpFile n _ | CaseFile n _ => n end.
(** a name in a directory: one part of a path *)
Definition one_part (n : str) : Prop := n <> [] /\ ~ In SLASH n.
Definition entry_name (n : str) : Prop := one_part n /\ n <> lit "." /\ n <> lit "..".

Lemma str_dec (a b : str) : a = b \/ a <> b.
Proof. destruct (str_eqb_spec a b); auto. Qed.
Lemma made_snoc h x n : made (h ++ [x]) n <-> made h n \/ makes n x.
Proof.
  unfold made. split.
  - intros (y & I & M). apply in_app_or in I as [I|[<-|[]]]; eauto.
  - intros [(y & I & M)|M]; [exists y; split; [apply in_or_app; now left|exact M]|exists x; split; [apply in_or_app; right; now left|exact M]].
Qed.
Lemma made_dec h n : made h n \/ ~ made h n.
Proof.
  induction h as [|x h IH] using rev_ind; [right; intros (x & [] & _)|]. rewrite made_snoc. destruct IH as [A|A]; [tauto|].
  destruct x as [m|m c|m c]; [destruct (str_dec m n) as [->|N]; [left; right; now left|right; intros [B|[B|[c B]]]; [tauto|congruence|discriminate]]
    |destruct (str_dec m n) as [->|N]; [left; right; right; eauto|right; intros [B|[B|[c' B]]]; [tauto|discriminate|congruence]]
    |right; intros [B|[B|[c' B]]]; [tauto|discriminate|discriminate]].
Qed.
Lemma snoc_split {A} (h : list A) x b y a : h ++ [x] = b ++ y :: a -> (a = [] /\ h = b /\ x = y) \/ exists a', a = a' ++ [x] /\ h = b ++ y :: a'.
Proof.
  intros E. destruct (exists_last (l := y :: a)) as (l & z & EL); [discriminate|]. rewrite EL in E. rewrite app_assoc in E. apply app_inj_tail in E as [E ->].
  destruct l as [|w l]; cbn [app] in EL; [injection EL as -> ->; left; rewrite app_nil_r in E; auto|]. injection EL as -> ->. right. eauto.
Qed.
Lemma dir_in_snoc h x n : dir_in (h ++ [x]) n <-> dir_in h n \/ (x = TmpDir n /\ ~ made h n).
Proof.
  unfold dir_in. split.
  - intros (b & a & E & N). apply snoc_split in E as [(-> & -> & ->)|(a' & -> & ->)]; [now right|left; eauto].
  - intros [(b & a & -> & N)|[-> N]]; [exists b, (a ++ [x]); rewrite <- app_assoc; auto|exists h, []; auto].
Qed.
Lemma dir_in_made h n : dir_in h n -> made h n.
Proof. intros (b & a & -> & _). exists (TmpDir n). split; [apply in_or_app; right; now left|now left]. Qed.
Lemma dir_in_dec h n : dir_in h n \/ ~ dir_in h n.
Proof.
  induction h as [|x h IH] using rev_ind; [right; intros (b & a & E & _); now destruct b|]. rewrite dir_in_snoc. destruct IH as [A|A]; [tauto|].
  destruct (made_dec h n) as [M|M]; [right; tauto|]. destruct x as [m|m c|m c]; [destruct (str_dec m n) as [->|N]; [tauto|right; intros [B|[B _]]; [tauto|congruence]]|right; intros [B|[B _]]; [tauto|discriminate]|right; intros [B|[B _]]; [tauto|discriminate]].
Qed.
Lemma wrote_made h n c : wrote h n c -> made h n.
Proof. intros (_ & b & a & -> & _). exists (TmpFile n c). split; [apply in_or_app; right; now left|right; eauto]. Qed.
Lemma wrote_snoc h x m c : wrote (h ++ [x]) m c <->
  (exists d, x = TmpFile m d /\ ~ dir_in h m /\ c = d) \/ ((forall d, x <> TmpFile m d) /\ wrote h m c).
Proof.
  unfold wrote. split.
  - intros (ND & b & a & E & N). assert (ND' : ~ dir_in h m) by (intros H; apply ND, dir_in_snoc; now left). apply snoc_split in E as [(-> & -> & ->)|(a' & -> & ->)]; [left; eauto|].
    right. split; [intros d ->; apply (N d); apply in_or_app; right; now left|]. split; [exact ND'|]. exists b, a'. split; [reflexivity|]. intros y I. apply (N y), in_or_app. now left.
  - intros [(d & -> & ND & ->)|(NX & ND & b & a & -> & N)].
    + split; [rewrite dir_in_snoc; intros [H|[H _]]; [tauto|discriminate]|]. exists h, []. split; [reflexivity|]. intros y [].
    + split; [rewrite dir_in_snoc; intros [H|[_ H]]; [tauto|]; apply H; exists (TmpFile m c); split; [apply in_or_app; right; now left|right; eauto]|].
      exists b, (a ++ [x]). split; [now rewrite <- app_assoc|]. intros y I. apply in_app_or in I as [I|[I|[]]]; [now apply (N y)|now apply (NX y)].
Qed.
Lemma kept_snoc h x m c : kept (h ++ [x]) m c <-> x = CaseFile m c \/ ((forall d, x <> CaseFile m d) /\ kept h m c).
Proof.
  unfold kept. split.
  - intros (b & a & E & N). apply snoc_split in E as [(-> & -> & ->)|(a' & -> & ->)]; [now left|].
    right. split; [intros d ->; apply (N d); apply in_or_app; right; now left|]. exists b, a'. split; [reflexivity|]. intros y I. apply (N y), in_or_app. now left.
  - intros [->|(NX & b & a & -> & N)]; [exists h, []; split; [reflexivity|]; intros y []|].
    exists b, (a ++ [x]). split; [now rewrite <- app_assoc|]. intros y I. apply in_app_or in I as [I|[I|[]]]; [now apply (N y)|now apply (NX y)].
Qed.
Lemma made_kind h n : made h n -> dir_in h n \/ exists c, wrote h n c.
Proof.
  induction h as [|x h IH] using rev_ind; [intros (x & [] & _)|]. rewrite made_snoc. intros M.
  destruct (dir_in_dec (h ++ [x]) n) as [D|D]; [now left|right]. rewrite dir_in_snoc in D.
  destruct x as [m|m c|m c].
  - assert (MH : made h n).
    { destruct M as [M|[M|[c M]]]; [exact M| |discriminate]. injection M as ->. destruct (made_dec h n) as [A|A]; [exact A|]. tauto. }
    destruct (IH MH) as [A|[c A]]; [tauto|]. exists c. apply wrote_snoc. right. split; [discriminate|exact A].
  - destruct (str_dec m n) as [->|N]; [exists c; apply wrote_snoc; left; exists c; tauto|].
    destruct M as [M|[M|[c' M]]]; [|discriminate|congruence]. destruct (IH M) as [A|[c' A]]; [tauto|]. exists c'. apply wrote_snoc. right. split; [congruence|exact A].
  - destruct M as [M|[M|[c' M]]]; [|discriminate|discriminate]. destruct (IH M) as [A|[c' A]]; [tauto|]. exists c'. apply wrote_snoc. right. split; [discriminate|exact A].
Qed.

Lemma lookup_write_eq p c f : lookup p (write_file p c f) = Some c.
Proof. rewrite lookup_write. now rewrite str_eqb_refl. Qed.
Lemma lookup_write_neq p q c f : p <> q -> lookup p (write_file q c f) = lookup p f.
Proof. intros N. rewrite lookup_write. destruct (str_eqb_spec q p) as [->|]; [contradiction|reflexivity]. Qed.

Section Case.
  Variables base name : str.
  Hypothesis Hbase : base <> [] /\ ends_with [SLASH] base = false.
  Hypothesis Hname : one_part name.
  Let D : str := base ++ SLASH :: name.
  Let T : str := base ++ SLASH :: name ++ lit ".tmp".

  Lemma one_part_start n : one_part n -> starts_with [SLASH] n = false.
  Proof. intros [N S]. destruct n as [|c n]; [congruence|]. cbn [starts_with]. destruct (N.eqb_spec SLASH c) as [<-|]; [elim S; now left|reflexivity]. Qed.
  Lemma D_eq : out_dir_name base name = D.
  Proof. unfold out_dir_name. apply path_join_plain; [apply Hbase|apply Hbase|now apply one_part_start]. Qed.
  Lemma tmp_part : one_part (name ++ lit ".tmp").
  Proof. destruct Hname as [N S]. split; [destruct name; discriminate|]. intros I. apply in_app_or in I as [I|I]; [contradiction|]. cbn in I. intuition discriminate. Qed.
  Lemma T_eq : out_tmp_dir_name base name = T.
  Proof. unfold out_tmp_dir_name. apply path_join_plain; [apply Hbase|apply Hbase|apply one_part_start, tmp_part]. Qed.
  Lemma ends_part d n : one_part n -> ends_with [SLASH] (d ++ SLASH :: n) = false.
  Proof.
    intros [N S]. destruct (ends_with [SLASH] (d ++ SLASH :: n)) eqn:E; [|reflexivity]. exfalso. apply ends_with_iff in E as [r E].
    destruct (exists_last N) as (l & z & ->). change (SLASH :: l ++ [z]) with ((SLASH :: l) ++ [z]) in E. rewrite app_assoc in E. apply app_inj_tail in E as [_ ->]. apply S, in_or_app. right. now left.
  Qed.
  Lemma join_D n : one_part n -> path_join D n = D ++ SLASH :: n.
  Proof. intros H. apply path_join_plain; [destruct base; discriminate|apply ends_part, Hname|now apply one_part_start]. Qed.
  Lemma join_T n : one_part n -> path_join T n = T ++ SLASH :: n.
  Proof. intros H. apply path_join_plain; [destruct base; discriminate|apply ends_part, tmp_part|now apply one_part_start]. Qed.
  Lemma split_part d n : d <> [] -> ends_with [SLASH] d = false -> one_part n -> path_split (d ++ SLASH :: n) = (d, n).
  Proof.
    intros ND ED [N S]. unfold path_split. rewrite rev_app_distr. cbn [rev]. rewrite <- app_assoc. cbn [app].
    assert (SP : span (fun c => negb (N.eqb c SLASH)) (rev n ++ SLASH :: rev d) = (rev n, SLASH :: rev d)).
    { assert (F : forall c, In c (rev n) -> c <> SLASH) by (intros c I ->; apply S; now apply in_rev). revert F. generalize (rev n). clear. induction l as [|c l IH]; intros F; cbn [span app].
      - now rewrite N.eqb_refl.
      - destruct (N.eqb_spec c SLASH) as [->|]; [elim (F SLASH); [now left|reflexivity]|]. cbn [negb]. rewrite IH by (intros x I; apply F; now right). reflexivity. }
    rewrite SP. unfold lstrip. cbn [span]. rewrite N.eqb_refl. destruct (exists_last ND) as (l & z & ->). rewrite rev_app_distr. cbn [rev app span].
    assert (NZ : z <> SLASH) by (intros ->; assert (X : ends_with [SLASH] (l ++ [SLASH]) = true) by (apply ends_with_iff; now exists l); congruence).
    destruct (N.eqb_spec SLASH z) as [E|_]; [now elim NZ|]. cbn [snd]. f_equal; [|apply rev_involutive]. change (z :: rev l) with ([z] ++ rev l). rewrite rev_app_distr, rev_involutive. reflexivity.
  Qed.

  Definition inside (p : str) : Prop := within D p \/ within T p.
  Lemma base_outside : ~ inside base.
  Proof.
    unfold inside, within, D, T. intros [[E|[r E]]|[E|[r E]]]; apply (f_equal (@length _)) in E; repeat (rewrite ?app_length in E; cbn [length] in E); lia.
  Qed.
  Lemma cut_base a b : base ++ SLASH :: name ++ a = base ++ SLASH :: name ++ b -> a = b.
  Proof. intros E. apply app_inv_head in E. injection E as E. now apply app_inv_head in E. Qed.
  Lemma D_form a : D ++ a = base ++ SLASH :: name ++ a.
  Proof. unfold D. now rewrite <- app_assoc. Qed.
  Lemma T_form a : T ++ a = base ++ SLASH :: name ++ lit ".tmp" ++ a.
  Proof. unfold T. rewrite <- app_assoc. cbn [app]. now rewrite <- app_assoc. Qed.
  Lemma D_T : D <> T.
  Proof. rewrite <- (app_nil_r D), <- (app_nil_r T), D_form, T_form. intros E. apply cut_base in E. discriminate. Qed.
  Lemma D_part_T n : D ++ SLASH :: n <> T.
  Proof. rewrite <- (app_nil_r T), D_form, T_form. intros E. apply cut_base in E. discriminate. Qed.
  Lemma T_part_D n : T ++ SLASH :: n <> D.
  Proof. rewrite <- (app_nil_r D), D_form, T_form. intros E. apply cut_base in E. discriminate. Qed.
  Lemma D_T_parts n m : D ++ SLASH :: n <> T ++ SLASH :: m.
  Proof. rewrite D_form, T_form. intros E. apply cut_base in E. discriminate. Qed.
  Lemma self_part d n : d ++ SLASH :: n <> d.
  Proof. intros E. apply (f_equal (@length _)) in E. rewrite app_length in E. cbn [length] in E. lia. Qed.
  Lemma part_inj d n m : d ++ SLASH :: n = d ++ SLASH :: m -> n = m.
  Proof. intros E. apply app_inv_head in E. congruence. Qed.

  (** ** The tree after the calls [h] *)
  Record state_after (h : list tcall) (t0 t : tree) : Prop := {
    sa_dirs : forall d, In d (t_dirs t) <->
      (In d (t_dirs t0) /\ ~ inside d) \/ (d = T /\ exists n, made h n) \/ (d = D /\ exists n c, kept h n c) \/ (exists n, d = T ++ SLASH :: n /\ dir_in h n);
    sa_files : forall p c, lookup p (t_files t) = Some c <->
      (lookup p (t_files t0) = Some c /\ ~ inside p) \/ (exists n, p = T ++ SLASH :: n /\ wrote h n c) \/ (exists n, p = D ++ SLASH :: n /\ kept h n c)
  }.
  Lemma T_inside : inside T. Proof. right. now left. Qed.
  Lemma D_inside : inside D. Proof. left. now left. Qed.
  Lemma Tn_inside n : inside (T ++ SLASH :: n). Proof. right. right. eauto. Qed.
  Lemma Dn_inside n : inside (D ++ SLASH :: n). Proof. left. right. eauto. Qed.
  Lemma there_iff p t : there p t = true <-> (exists c, lookup p (t_files t) = Some c) \/ In p (t_dirs t).
  Proof. unfold there, is_file. rewrite orb_true_iff, str_mem_In. destruct (lookup p (t_files t)); split; intros [A|A]; auto; try discriminate; [left; eauto|destruct A; discriminate]. Qed.

  Section Steps.
    Variables (h : list tcall) (t0 t : tree).
    Hypothesis S : state_after h t0 t.
    Hypothesis HB : In base (t_dirs t0).
    Lemma is_dir_in d u : d <> [] -> In d (t_dirs u) -> is_directory d u = true.
    Proof. intros N I. unfold is_directory. destruct d; [reflexivity|]. now apply str_mem_In. Qed.
    Lemma base_is : is_directory base t = true.
    Proof. apply is_dir_in; [apply Hbase|]. apply (sa_dirs _ _ _ S). left. split; [exact HB|exact base_outside]. Qed.
    Lemma there_T : there T t = true <-> exists n, made h n.
    Proof.
      rewrite there_iff. split.
      - intros [[c I]|I].
        + apply (sa_files _ _ _ S) in I as [[_ I]|[(n & E & _)|(n & E & _)]]; [elim I; exact T_inside|elim (self_part T n); now symmetry|elim (D_part_T n); now symmetry].
        + apply (sa_dirs _ _ _ S) in I as [[_ I]|[[_ I]|[[E _]|(n & E & _)]]]; [elim I; exact T_inside|exact I|elim D_T; now symmetry|elim (self_part T n); now symmetry].
      - intros I. right. apply (sa_dirs _ _ _ S). right. left. auto.
    Qed.
    Lemma there_D : there D t = true <-> exists n c, kept h n c.
    Proof.
      rewrite there_iff. split.
      - intros [[c I]|I].
        + apply (sa_files _ _ _ S) in I as [[_ I]|[(n & E & _)|(n & E & _)]]; [elim I; exact D_inside|elim (T_part_D n); now symmetry|elim (self_part D n); now symmetry].
        + apply (sa_dirs _ _ _ S) in I as [[_ I]|[[E _]|[[_ I]|(n & E & _)]]]; [elim I; exact D_inside|elim D_T; exact E|exact I|elim (T_part_D n); now symmetry].
      - intros I. right. apply (sa_dirs _ _ _ S). right. right. left. auto.
    Qed.
    Lemma dir_Tn n : In (T ++ SLASH :: n) (t_dirs t) <-> dir_in h n.
    Proof.
      rewrite (sa_dirs _ _ _ S). split.
      - intros [[_ I]|[[E _]|[[E _]|(m & E & I)]]]; [elim I; apply Tn_inside|elim (self_part T n E)|elim (T_part_D n E)|]. apply part_inj in E. now subst m.
      - intros I. right. right. right. eauto.
    Qed.
    Lemma file_Tn n c : lookup (T ++ SLASH :: n) (t_files t) = Some c <-> wrote h n c.
    Proof.
      rewrite (sa_files _ _ _ S). split.
      - intros [[_ I]|[(m & E & I)|(m & E & _)]]; [elim I; apply Tn_inside| |elim (D_T_parts m n); now symmetry]. apply part_inj in E. now subst m.
      - intros I. right. left. eauto.
    Qed.
    Lemma there_Tn n : there (T ++ SLASH :: n) t = true <-> made h n.
    Proof.
      rewrite there_iff, dir_Tn. split; [intros [[c I]|I]; [apply file_Tn in I; now apply wrote_made in I|now apply dir_in_made]|].
      intros M. apply made_kind in M as [A|[c A]]; [now right|left; exists c; now apply file_Tn].
    Qed.
    Lemma no_dir_Dn n : ~ In (D ++ SLASH :: n) (t_dirs t).
    Proof.
      rewrite (sa_dirs _ _ _ S). intros [[_ I]|[[E _]|[[E _]|(m & E & I)]]]; [elim I; apply Dn_inside|elim (D_part_T n E)|elim (self_part D n E)|elim (D_T_parts n m E)].
    Qed.
    Lemma D_nil : D <> [].
    Proof. intros E; symmetry in E; revert E; apply app_cons_not_nil. Qed.
    Lemma T_nil : T <> [].
    Proof. intros E; symmetry in E; revert E; apply app_cons_not_nil. Qed.

    (** making the directory the first time *)
    Lemma ensure_T : exists t1, (if there T t then Some t else os_mkdir T t) = Some t1 /\ t_files t1 = t_files t /\ forall d, In d (t_dirs t1) <-> In d (t_dirs t) \/ d = T.
    Proof.
      destruct (there T t) eqn:E.
      - exists t. repeat split; [tauto|]. intros [I| ->]; [exact I|]. apply (sa_dirs _ _ _ S). right. left. split; [reflexivity|now apply there_T].
      - unfold os_mkdir. rewrite E. rewrite (split_part base (name ++ lit ".tmp") (proj1 Hbase) (proj2 Hbase) tmp_part : path_split T = _). cbn [fst orb]. rewrite base_is. cbn [negb].
        eexists. split; [reflexivity|]. cbn [t_files t_dirs In]. split; [reflexivity|]. intros d. split; [intros [H|H]; auto|intros [H|H]; auto].
    Qed.
    Lemma ensure_D : exists t1, (if there D t then Some t else os_mkdir D t) = Some t1 /\ t_files t1 = t_files t /\ forall d, In d (t_dirs t1) <-> In d (t_dirs t) \/ d = D.
    Proof.
      destruct (there D t) eqn:E.
      - exists t. repeat split; [tauto|]. intros [I| ->]; [exact I|]. apply (sa_dirs _ _ _ S). right. right. left. split; [reflexivity|now apply there_D].
      - unfold os_mkdir. rewrite E. rewrite (split_part base name (proj1 Hbase) (proj2 Hbase) Hname : path_split D = _). cbn [fst orb]. rewrite base_is. cbn [negb].
        eexists. split; [reflexivity|]. cbn [t_files t_dirs In]. split; [reflexivity|]. intros d. split; [intros [H|H]; auto|intros [H|H]; auto].
    Qed.

    (** the answer of a call *)
    Definition answers (g : list tcall) (x : tcall) (p : option str) : Prop :=
      match x with
      | TmpDir n => (made g n /\ p = None) \/ (~ made g n /\ p = Some (T ++ SLASH :: n))
      | TmpFile n _ => (dir_in g n /\ p = None) \/ (~ dir_in g n /\ p = Some (T ++ SLASH :: n))
      | CaseFile n _ => p = Some (D ++ SLASH :: n)
      end.

    Lemma step_TmpDir n : one_part n -> answers h (TmpDir n) (fst (do_call base name (TmpDir n) t)) /\ state_after (h ++ [TmpDir n]) t0 (snd (do_call base name (TmpDir n) t)).
    Proof.
      intros HN. destruct ensure_T as (t1 & E1 & F1 & D1).
      assert (SPL : path_split (T ++ SLASH :: n) = (T, n)) by (apply split_part; [exact T_nil|apply ends_part, tmp_part|exact HN]).
      assert (ISD : is_directory T t1 = true) by (apply is_dir_in; [exact T_nil|apply D1; now right]).
      assert (TH : there (T ++ SLASH :: n) t1 = there (T ++ SLASH :: n) t).
      { apply eq_iff_eq_true. rewrite !there_iff, F1, D1. split; [intros [A|[A|A]]; auto; now apply self_part in A|tauto]. }
      assert (MADE : forall m, made (h ++ [TmpDir n]) m <-> made h m \/ m = n).
      { intros m. rewrite made_snoc. unfold makes. split; intros [A|A]; auto; [destruct A as [A|[c A]]; [right; congruence|discriminate]|subst; auto]. }
      assert (WR : forall m c, wrote (h ++ [TmpDir n]) m c <-> wrote h m c).
      { intros m c. rewrite wrote_snoc. split; [intros [(d & A & _)|[_ A]]; [discriminate|exact A]|intros A; right; split; [discriminate|exact A]]. }
      assert (KE : forall m c, kept (h ++ [TmpDir n]) m c <-> kept h m c).
      { intros m c. rewrite kept_snoc. split; [intros [A|[_ A]]; [discriminate|exact A]|intros A; right; split; [discriminate|exact A]]. }
      assert (SAF : forall p c, lookup p (t_files t) = Some c <-> (lookup p (t_files t0) = Some c /\ ~ inside p) \/ (exists n0, p = T ++ SLASH :: n0 /\ wrote (h ++ [TmpDir n]) n0 c) \/ (exists n0, p = D ++ SLASH :: n0 /\ kept (h ++ [TmpDir n]) n0 c)).
      { intros p c. setoid_rewrite WR. setoid_rewrite KE. apply (sa_files _ _ _ S). }
      unfold do_call, tmp_dir, tmp_path. rewrite T_eq, E1, (join_T n HN). unfold os_mkdir. rewrite SPL, TH. cbn [fst]. rewrite ISD. cbn [negb]. rewrite orb_false_r.
      destruct (there (T ++ SLASH :: n) t) eqn:E; cbn [fst snd].
      - apply there_Tn in E. split; [left; auto|]. constructor.
        + intros d. rewrite D1, (sa_dirs _ _ _ S). split.
          * intros [[A|[[A B]|[[A (m & c & B)]|(m & A & B)]]]|A]; [left; exact A|right; left; split; [exact A|exists n; apply MADE; now right]|right; right; left; split; [exact A|exists m, c; now apply KE]
              |right; right; right; exists m; split; [exact A|apply dir_in_snoc; now left]|right; left; split; [exact A|exists n; apply MADE; now right]].
          * intros [A|[[A B]|[[A (m & c & B)]|(m & A & B)]]]; [left; left; exact A|right; exact A|left; right; right; left; split; [exact A|exists m, c; now apply KE]|].
            left. right. right. right. exists m. split; [exact A|]. apply dir_in_snoc in B as [B|[B1 B2]]; [exact B|]. injection B1 as ->. contradiction.
        + rewrite F1. exact SAF.
      - assert (NM : ~ made h n) by (rewrite <- there_Tn; congruence). split; [right; auto|]. constructor; cbn [t_files t_dirs In].
        + intros d. rewrite D1, (sa_dirs _ _ _ S). split.
          * intros [A|[[A|[[A B]|[[A (m & c & B)]|(m & A & B)]]]|A]]; [right; right; right; exists n; split; [now symmetry|apply dir_in_snoc; now right]|left; exact A|right; left; split; [exact A|exists n; apply MADE; now right]|right; right; left; split; [exact A|exists m, c; now apply KE]
              |right; right; right; exists m; split; [exact A|apply dir_in_snoc; now left]|right; left; split; [exact A|exists n; apply MADE; now right]].
          * intros [A|[[A B]|[[A (m & c & B)]|(m & A & B)]]]; [right; left; left; exact A|right; right; exact A|right; left; right; right; left; split; [exact A|exists m, c; now apply KE]|].
            apply dir_in_snoc in B as [B|[B1 B2]]; [right; left; right; right; right; exists m; auto|]. injection B1 as ->. left. now symmetry.
        + rewrite F1. exact SAF.
    Qed.

    Lemma step_TmpFile n x : one_part n -> answers h (TmpFile n x) (fst (do_call base name (TmpFile n x) t)) /\ state_after (h ++ [TmpFile n x]) t0 (snd (do_call base name (TmpFile n x) t)).
    Proof.
      intros HN. destruct ensure_T as (t1 & E1 & F1 & D1).
      assert (SPL : path_split (T ++ SLASH :: n) = (T, n)) by (apply split_part; [exact T_nil|apply ends_part, tmp_part|exact HN]).
      assert (ISD : is_directory T t1 = true) by (apply is_dir_in; [exact T_nil|apply D1; now right]).
      assert (TH : str_mem (T ++ SLASH :: n) (t_dirs t1) = true <-> dir_in h n).
      { rewrite str_mem_In, D1, dir_Tn. split; [intros [A|A]; auto; now apply self_part in A|tauto]. }
      assert (DI : forall m, dir_in (h ++ [TmpFile n x]) m <-> dir_in h m).
      { intros m. rewrite dir_in_snoc. split; [intros [A|[A _]]; [exact A|discriminate]|tauto]. }
      assert (KE : forall m c, kept (h ++ [TmpFile n x]) m c <-> kept h m c).
      { intros m c. rewrite kept_snoc. split; [intros [A|[_ A]]; [discriminate|exact A]|intros A; right; split; [discriminate|exact A]]. }
      assert (MN : exists m, made (h ++ [TmpFile n x]) m) by (exists n; apply made_snoc; right; right; eauto).
      assert (SAD : forall d, In d (t_dirs t1) <-> (In d (t_dirs t0) /\ ~ inside d) \/ (d = T /\ exists n0, made (h ++ [TmpFile n x]) n0) \/ (d = D /\ exists n0 c, kept (h ++ [TmpFile n x]) n0 c) \/ (exists n0, d = T ++ SLASH :: n0 /\ dir_in (h ++ [TmpFile n x]) n0)).
      { intros d. rewrite D1, (sa_dirs _ _ _ S). setoid_rewrite DI. setoid_rewrite KE. tauto. }
      unfold do_call, tmp_file, tmp_path. rewrite T_eq, E1, (join_T n HN). unfold and_write, os_write. rewrite SPL. cbn [fst]. rewrite ISD. cbn [negb]. rewrite orb_false_r.
      destruct (str_mem (T ++ SLASH :: n) (t_dirs t1)) eqn:E; cbn [fst snd].
      - assert (DH : dir_in h n) by now apply TH. split; [left; auto|]. constructor; [exact SAD|]. intros p c. rewrite F1, (sa_files _ _ _ S). setoid_rewrite KE.
        assert (WR : forall m, wrote (h ++ [TmpFile n x]) m c <-> wrote h m c).
        { intros m. rewrite wrote_snoc. split; [intros [(d & A & B & _)|[_ A]]; [injection A as -> ->; contradiction|exact A]|]. intros A. right. split; [|exact A]. intros d B. injection B as -> ->. destruct A as [A _]. contradiction. }
        setoid_rewrite WR. reflexivity.
      - assert (ND : ~ dir_in h n) by (intros A; apply TH in A; congruence). split; [right; auto|]. constructor; cbn [t_files t_dirs]; [exact SAD|]. intros p c.
        destruct (str_dec p (T ++ SLASH :: n)) as [->|NP].
        + rewrite lookup_write_eq. split.
          * intros A. injection A as ->. right. left. exists n. split; [reflexivity|]. apply wrote_snoc. left. eauto.
          * intros [[_ A]|[(m & A & B)|(m & A & _)]]; [elim A; apply Tn_inside| |elim (D_T_parts m n); now symmetry]. apply part_inj in A. subst m. apply wrote_snoc in B as [(d & B1 & _ & ->)|[B _]]; [injection B1 as ->; reflexivity|now elim (B x)].
        + rewrite lookup_write_neq by exact NP. rewrite F1, (sa_files _ _ _ S). setoid_rewrite KE. split; (intros [A|[(m & A & B)|A]]; [now left| |right; right; exact A]); right; left; exists m; (split; [exact A|]).
          * apply wrote_snoc. right. split; [|exact B]. intros d C. injection C as -> ->. now apply NP.
          * apply wrote_snoc in B as [(d & B1 & _ & ->)|[_ B]]; [injection B1 as -> ->; now elim NP|exact B].
    Qed.

    Lemma step_CaseFile n x : one_part n -> answers h (CaseFile n x) (fst (do_call base name (CaseFile n x) t)) /\ state_after (h ++ [CaseFile n x]) t0 (snd (do_call base name (CaseFile n x) t)).
    Proof.
      intros HN. destruct ensure_D as (t1 & E1 & F1 & D1).
      assert (SPL : path_split (D ++ SLASH :: n) = (D, n)) by (apply split_part; [exact D_nil|apply ends_part, Hname|exact HN]).
      assert (ISD : is_directory D t1 = true) by (apply is_dir_in; [exact D_nil|apply D1; now right]).
      assert (E : str_mem (D ++ SLASH :: n) (t_dirs t1) = false).
      { destruct (str_mem (D ++ SLASH :: n) (t_dirs t1)) eqn:E; [|reflexivity]. apply str_mem_In, D1 in E as [A|A]; [now apply no_dir_Dn in A|now apply self_part in A]. }
      assert (DI : forall m, dir_in (h ++ [CaseFile n x]) m <-> dir_in h m).
      { intros m. rewrite dir_in_snoc. split; [intros [A|[A _]]; [exact A|discriminate]|tauto]. }
      assert (MA : forall m, made (h ++ [CaseFile n x]) m <-> made h m).
      { intros m. rewrite made_snoc. split; [intros [A|[A|[c A]]]; [exact A|discriminate|discriminate]|tauto]. }
      assert (WR : forall m c, wrote (h ++ [CaseFile n x]) m c <-> wrote h m c).
      { intros m c. rewrite wrote_snoc. split; [intros [(d & A & _)|[_ A]]; [discriminate|exact A]|intros A; right; split; [discriminate|exact A]]. }
      assert (KN : exists m c, kept (h ++ [CaseFile n x]) m c) by (exists n, x; apply kept_snoc; now left).
      unfold do_call, case_file. rewrite D_eq, E1, (join_D n HN). unfold and_write, os_write. rewrite SPL. cbn [fst]. rewrite ISD, E. cbn [negb orb fst snd].
      split; [reflexivity|]. constructor; cbn [t_files t_dirs].
      - intros d. rewrite D1, (sa_dirs _ _ _ S). setoid_rewrite DI. setoid_rewrite MA. tauto.
      - intros p c. destruct (str_dec p (D ++ SLASH :: n)) as [->|NP].
        + rewrite lookup_write_eq. split.
          * intros A. injection A as ->. right. right. exists n. split; [reflexivity|]. apply kept_snoc. now left.
          * intros [[_ A]|[(m & A & _)|(m & A & B)]]; [elim A; apply Dn_inside|now elim (D_T_parts n m)|]. apply part_inj in A. subst m. apply kept_snoc in B as [B|[B _]]; [injection B as ->; reflexivity|now elim (B x)].
        + rewrite lookup_write_neq by exact NP. rewrite F1, (sa_files _ _ _ S). setoid_rewrite WR. split; (intros [A|[A|(m & A & B)]]; [now left|right; left; exact A|]); right; right; exists m; (split; [exact A|]).
          * apply kept_snoc. right. split; [|exact B]. intros d C. injection C as -> ->. now apply NP.
          * apply kept_snoc in B as [B|[_ B]]; [injection B as -> ->; now elim NP|exact B].
    Qed.
  End Steps.
End Case.

(** ** A tree in which a test case can start *)
Record clear_place (base name : str) (t : tree) : Prop := {
  cp_base : base <> [] /\ ends_with [SLASH] base = false /\ In base (t_dirs t);
  cp_name : entry_name name;
  (** what is there below the two directories is in a directory: no files in their place *)
  cp_kind : forall d, d = base ++ SLASH :: name \/ d = base ++ SLASH :: name ++ lit ".tmp" ->
    lookup d (t_files t) = None /\ ((exists p, within d p /\ (In p (t_dirs t) \/ lookup p (t_files t) <> None)) -> In d (t_dirs t))
}.

Lemma removed d t : let u := remove_all d t in
  (forall p, In p (t_dirs u) <-> In p (t_dirs t) /\ ~ within d p) /\ (forall p c, lookup p (t_files u) = Some c <-> lookup p (t_files t) = Some c /\ ~ within d p).
Proof.
  cbn zeta. unfold remove_all. cbn [t_files t_dirs]. split.
  - intros p. rewrite filter_In, negb_true_iff, <- within_iff. now rewrite not_true_iff_false.
  - intros p c. rewrite (ShellProps.lookup_filter (fun q => negb (str_eqb d q || below d q))). rewrite <- within_iff. destruct (str_eqb d p || below d p); cbn [negb]; intuition congruence.
Qed.
Lemma purged d t : lookup d (t_files t) = None -> ((exists p, within d p /\ (In p (t_dirs t) \/ lookup p (t_files t) <> None)) -> In d (t_dirs t)) ->
  exists u, purge_dir d t = Some u /\ (forall p, In p (t_dirs u) <-> In p (t_dirs t) /\ ~ within d p) /\ (forall p c, lookup p (t_files u) = Some c <-> lookup p (t_files t) = Some c /\ ~ within d p).
Proof.
  intros NF CL. unfold purge_dir. destruct (there d t) eqn:E.
  - assert (I : In d (t_dirs t)) by (apply there_iff in E as [[c A]|A]; [congruence|exact A]). rewrite (proj2 (str_mem_In _ _) I). exists (remove_all d t). split; [reflexivity|]. apply removed.
  - exists t. split; [reflexivity|]. assert (NI : ~ In d (t_dirs t)) by (intros A; assert (there d t = true) by (apply there_iff; now right); congruence).
    split; [intros p; split; [|tauto]; intros A; split; [exact A|]; intros W; apply NI, CL; eauto|]. intros p c. split; [|tauto]. intros A. split; [exact A|]. intros W. apply NI, CL. exists p. split; [exact W|]. right. congruence.
Qed.
Lemma start base name t : clear_place base name t -> exists u, purge_case base name t = Some u /\ state_after base name [] t u.
Proof.
  intros [(HB & HE & HI) [HN _] HK].
  destruct (HK _ (or_introl eq_refl)) as [K1 K2]. destruct (HK _ (or_intror eq_refl)) as [K3 K4].
  unfold purge_case. rewrite (D_eq base name (conj HB HE) HN), (T_eq base name (conj HB HE) HN).
  destruct (purged _ _ K1 K2) as (t1 & E1 & D1 & F1). rewrite E1.
  assert (NW : ~ within (base ++ SLASH :: name) (base ++ SLASH :: name ++ lit ".tmp")).
  { intros [A|[r A]]; [now apply (D_T base name)|now apply (D_part_T base name r)]. }
  destruct (purged (base ++ SLASH :: name ++ lit ".tmp") t1) as (t2 & E2 & D2 & F2).
  { destruct (lookup _ (t_files t1)) as [c|] eqn:L; [|reflexivity]. apply F1 in L as [L _]. congruence. }
  { intros (p & W & I). apply D1. split; [|exact NW]. apply K4. exists p. split; [exact W|]. destruct I as [I|I]; [left; now apply D1 in I|right].
    destruct (lookup p (t_files t1)) as [c|] eqn:L; [|congruence]. apply F1 in L as [L _]. congruence. }
  exists t2. split; [exact E2|]. constructor.
  - intros d. rewrite D2, D1. unfold inside. split; [intros [[A B] C]; left; tauto|]. intros [[A B]|[[_ (n & x & [] & _)]|[[_ (n & c & b & a & E & _)]|(n & _ & b & a & E & _)]]]; [tauto|now destruct b|now destruct b].
  - intros p c. rewrite F2, F1. unfold inside. split; [intros [[A B] C]; left; tauto|]. intros [[A B]|[(n & _ & _ & b & a & E & _)|(n & _ & b & a & E & _)]]; [tauto|now destruct b|now destruct b].
Qed.
Lemma going base name t0 : clear_place base name t0 -> forall xs h t, Forall (fun x => entry_name (call_name x)) xs -> state_after base name h t0 t ->
  state_after base name (h ++ xs) t0 (snd (do_calls base name xs t)) /\ length (fst (do_calls base name xs t)) = length xs /\
  forall b x a, xs = b ++ x :: a -> exists p, nth_error (fst (do_calls base name xs t)) (length b) = Some p /\ answers base name (h ++ b) x p.
Proof.
  intros [(HB & HE & HI) [HN _] HK]. pose proof (conj HB HE) as HBE. induction xs as [|x xs IH]; intros h t FA S.
  - cbn [do_calls fst snd length]. rewrite app_nil_r. split; [exact S|]. split; [reflexivity|]. intros b x a E. now destruct b.
  - apply Forall_cons_iff in FA as [[Hx _] FA].
    assert (ST : answers base name h x (fst (do_call base name x t)) /\ state_after base name (h ++ [x]) t0 (snd (do_call base name x t))).
    { destruct x as [n|n c|n c]; cbn [call_name] in Hx; [apply step_TmpDir|apply step_TmpFile|apply step_CaseFile]; assumption. }
    destruct ST as [AN ST]. cbn [do_calls]. destruct (do_call base name x t) as [p t1]. cbn [fst snd] in AN, ST.
    destruct (IH _ _ FA ST) as (S2 & LN & AL). destruct (do_calls base name xs t1) as [ps t2]. cbn [fst snd] in *. rewrite <- app_assoc in S2. cbn [app] in S2.
    split; [exact S2|]. split; [cbn [length]; now rewrite LN|]. intros b y a E. destruct b as [|z b]; cbn [app] in E.
    + injection E as <- <-. exists p. cbn [length nth_error]. rewrite app_nil_r. auto.
    + injection E as <- ->. destruct (AL b y a eq_refl) as (q & Q1 & Q2). exists q. split; [exact Q1|]. now rewrite <- app_assoc in Q2.
Qed.

(** C142: every call of a test case for a file or a temporary file gets the answer it should, and the tree in the end is what the calls say *)
Theorem C142_exact base name xs t : clear_place base name t -> Forall (fun x => entry_name (call_name x)) xs ->
  let D := base ++ SLASH :: name in
  let T := base ++ SLASH :: name ++ lit ".tmp" in
  exists ps u, tmp_run base name xs t = Some (ps, u) /\ length ps = length xs /\
    (forall h x a, xs = h ++ x :: a -> exists p, nth_error ps (length h) = Some p /\
       match x with
       | TmpDir n => (made h n /\ p = None) \/ (~ made h n /\ p = Some (T ++ SLASH :: n))
       | TmpFile n _ => (dir_in h n /\ p = None) \/ (~ dir_in h n /\ p = Some (T ++ SLASH :: n))
       | CaseFile n _ => p = Some (D ++ SLASH :: n)
       end) /\
    (forall d, In d (t_dirs u) <->
       (In d (t_dirs t) /\ ~ within D d /\ ~ within T d) \/ (d = T /\ exists n, made xs n) \/ (d = D /\ exists n c, kept xs n c) \/ (exists n, d = T ++ SLASH :: n /\ dir_in xs n)) /\
    (forall p c, lookup p (t_files u) = Some c <->
       (lookup p (t_files t) = Some c /\ ~ within D p /\ ~ within T p) \/ (exists n, p = T ++ SLASH :: n /\ wrote xs n c) \/ (exists n, p = D ++ SLASH :: n /\ kept xs n c)).
Proof.
  intros CP FA. cbn zeta. destruct (start _ _ _ CP) as (u0 & E0 & S0). destruct (going _ _ _ CP xs [] u0 FA S0) as (S & LN & AL). cbn [app] in S, AL.
  unfold tmp_run. rewrite E0. destruct (do_calls base name xs u0) as [ps u]. cbn [fst snd] in *. exists ps, u. split; [reflexivity|]. split; [exact LN|]. split; [exact AL|].
  assert (IN : forall q, ~ inside base name q <-> ~ within (base ++ SLASH :: name) q /\ ~ within (base ++ SLASH :: name ++ lit ".tmp") q) by (intros q; unfold inside; tauto).
  split; [intros d; rewrite (sa_dirs _ _ _ _ _ S), IN; reflexivity|intros p c; rewrite (sa_files _ _ _ _ _ S), IN; reflexivity].
Qed.
Print Assumptions C142_exact.

(** what a test is told about its files does not depend on what earlier runs left behind *)
Theorem C142_leftovers base name xs t t' ps u ps' u' : clear_place base name t -> clear_place base name t' -> Forall (fun x => entry_name (call_name x)) xs ->
  tmp_run base name xs t = Some (ps, u) -> tmp_run base name xs t' = Some (ps', u') -> ps = ps' /\
  (forall p, within (base ++ SLASH :: name) p \/ within (base ++ SLASH :: name ++ lit ".tmp") p -> lookup p (t_files u) = lookup p (t_files u') /\ (In p (t_dirs u) <-> In p (t_dirs u'))).
Proof.
  intros C C' FA E E'. destruct (C142_exact _ _ _ _ C FA) as (ps1 & u1 & E1 & L1 & A1 & D1 & F1). destruct (C142_exact _ _ _ _ C' FA) as (ps2 & u2 & E2 & L2 & A2 & D2 & F2).
  rewrite E in E1. rewrite E' in E2. injection E1 as <- <-. injection E2 as <- <-. split.
  - apply nth_ext with (d := None) (d' := None); [congruence|]. intros k Hk. rewrite L1 in Hk. destruct (nth_split xs (TmpDir []) Hk) as (h & a & EX & LH).
    destruct (A1 _ _ _ EX) as (p & P1 & P2). destruct (A2 _ _ _ EX) as (q & Q1 & Q2). rewrite LH in P1, Q1. rewrite (nth_error_nth _ _ None P1), (nth_error_nth _ _ None Q1).
    destruct (nth k xs (TmpDir [])) as [n|n c|n c]; [destruct P2 as [[? ->]|[? ->]], Q2 as [[? ->]|[? ->]]; tauto|destruct P2 as [[? ->]|[? ->]], Q2 as [[? ->]|[? ->]]; tauto|congruence].
  - intros p W. split; [|rewrite D1, D2; tauto].
    assert (H : forall c, lookup p (t_files u) = Some c <-> lookup p (t_files u') = Some c) by (intros c; rewrite F1, F2; tauto).
    destruct (lookup p (t_files u)) as [c|]; [symmetry; now apply H|]. destruct (lookup p (t_files u')) as [c|]; [|reflexivity]. now apply H.
Qed.
Print Assumptions C142_leftovers.

(** a test asks for a temporary directory, a temporary file twice, the directory again and a file; leftovers of an earlier run and another test stay out of it *)
Definition demo_tree : tree := {| t_files := [(lit "b/t/old.csv", lit "1"); (lit "b/t.md", lit "# t"); (lit "b/t.tmp/w", lit "2")]; t_dirs := [lit "b"; lit "b/t"; lit "b/t.tmp"] |}.
Definition demo_calls : list tcall := [TmpDir (lit "w"); TmpFile (lit "f") (lit "x"); TmpFile (lit "f") (lit "y"); TmpDir (lit "w"); TmpFile (lit "w") (lit "z"); CaseFile (lit "a.csv") (lit "3")].
Example C142_example : clear_place (lit "b") (lit "t") demo_tree /\ Forall (fun x => entry_name (call_name x)) demo_calls /\
  tmp_run (lit "b") (lit "t") demo_calls demo_tree =
    Some ([Some (lit "b/t.tmp/w"); Some (lit "b/t.tmp/f"); Some (lit "b/t.tmp/f"); None; None; Some (lit "b/t/a.csv")],
          {| t_files := t_files (snd (do_calls (lit "b") (lit "t") demo_calls {| t_files := [(lit "b/t.md", lit "# t")]; t_dirs := [lit "b"] |})); t_dirs := [lit "b/t"; lit "b/t.tmp/w"; lit "b/t.tmp"; lit "b"] |}).
Proof.
  split; [|split; [|vm_compute; reflexivity]].
  - constructor.
    + split; [discriminate|]. split; [reflexivity|now left].
    + split; [split; [discriminate|]; vm_compute; intuition discriminate|]. split; discriminate.
    + intros d [->| ->]; (split; [reflexivity|]); intros _; vm_compute; tauto.
  - unfold demo_calls. repeat (constructor; [split; [split; [discriminate|vm_compute; intuition discriminate]|split; discriminate]|]). constructor.
Qed.
