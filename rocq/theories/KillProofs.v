(** Towards C133: the files a killed run leaves, and the run that continues it. *)
From Verif Require Import PyStrFacts FsFacts CaseRunProps RunCaseProps ReportsProofs RunnerProofs ReviewProofs ParResumeProofs.
From Verif Require Export ParResumeProps KillModel.

(** ** the records *)
Section Records.
Context {D : Type} (show_dur : D -> str) (parse_dur : str -> option D) (sp : char -> bool).
Hypothesis DUR : durations_ok show_dur parse_dur.
Hypothesis SPC : space_ok sp.

Lemma report_text_app (a b : list (case_rec D)) : report_text show_dur (a ++ b) = report_text show_dur a ++ report_text show_dur b.
Proof. apply flat_map_app. Qed.

Lemma of_file_more a b t u : names_ok a -> names_ok b -> report_text show_dur b = t ++ u ->
  of_file parse_dur sp (Some (report_text show_dur a ++ t)) = a ++ of_file parse_dur sp (Some t).
Proof.
  intros Ha Hb EQ. rewrite (report_text_lines show_dur b) in EQ. destruct (lines_prefix _ _ _ EQ) as (k & x & y & -> & Hx). rewrite firstn_map.
  assert (Hk : names_ok (firstn k b)).
  { unfold names_ok in *. rewrite Forall_forall in *. intros r Hr. apply Hb. rewrite <- (firstn_skipn k b), in_app_iff. now left. }
  assert (BF : forall l, names_ok l -> Forall (fun l => ~ In NL l /\ ~ In CR l) (map (ReportsProofs.body show_dur) l)).
  { intros l Hl. rewrite Forall_map. eapply Forall_impl; [|exact Hl]. intros r Hr. now apply (body_field show_dur parse_dur DUR). }
  assert (NX : ~ In NL x /\ ~ In CR x).
  { destruct Hx as [->|Hx]; [easy|]. rewrite nth_error_map in Hx. destruct (nth_error b k) as [r|] eqn:Er; [|discriminate]. cbn [option_map] in Hx. injection Hx as Hx.
    destruct (body_field show_dur parse_dur DUR r) as [B1 B2]; [unfold names_ok in Hb; rewrite Forall_forall in Hb; apply Hb; eapply nth_error_In; eauto|].
    split; intros Hi; [apply B1|apply B2]; rewrite Hx, in_app_iff; auto. }
  rewrite (report_text_lines show_dur a). unfold of_file. rewrite app_assoc, <- flat_map_app, <- map_app. rewrite !read_lines_text; try apply NX; try (apply BF; auto).
  - rewrite map_app, <- app_assoc, flat_map_app. f_equal. apply (flat_map_parse show_dur parse_dur sp DUR SPC a Ha).
  - unfold names_ok in *. apply Forall_app. auto.
Qed.

(** reading a part of the report *)
Lemma of_file_part b t u : names_ok b -> report_text show_dur b = t ++ u ->
  forall n r d, In (n, r, d) (of_file parse_dur sp (Some t)) -> exists d', In (n, r, d') b.
Proof.
  intros Hb EQ n r d H. destruct (of_file_prefix show_dur parse_dur sp DUR SPC b t u Hb EQ) as (k & tl & E1 & E2). rewrite E1, in_app_iff in H. destruct H as [H|H].
  - exists d. rewrite <- (firstn_skipn k b), in_app_iff. now left.
  - destruct E2 as [->|(n0 & r0 & d0 & d1 & E2 & ->)]; [destruct H|]. destruct H as [X|[]]. injection X as -> -> ->. exists d0. eapply nth_error_In; eauto.
Qed.
End Records.

Section Kill.
Variable cc : CharClass.
Variable refloat : str -> option str.
Variables (E o : str).
Hypothesis HE : plain_dir E.
Hypothesis Ho : plain o.
Hypothesis Hdot : starts_with [DOT] o = true.
Notation O := (E ++ SLASH :: o).
Variable body : str -> fs -> body_run.
Context {D : Type} (show_dur : D -> str) (parse_dur : str -> option D) (sp : char -> bool).
Hypothesis DUR : durations_ok show_dur parse_dur.
Hypothesis SPC : space_ok sp.
Variable names : list str.
Variable deps : str -> list str.
Hypothesis SEP : separate names.
Hypothesis NOUT : ~ In (lit "output") names.
Hypothesis HN : forall n, In n names -> field_ok n /\ incl (deps n) names /\ reads_fresh E O deps n (body n).
Variable all_names : list str.
Notation bin d := (O ++ SLASH :: d ++ lit ".bin").

Lemma named n : In n names -> case_name n.
Proof. apply (a_name names SEP). Qed.
Lemma bin_path n : case_name n -> path_join O (n ++ lit ".bin") = bin n.
Proof.
  intros [P _]. apply path_join_name; [now apply HO|]. pose proof (proper_start _ P) as S1. pose proof (proper_nonempty _ P) as NE. destruct n; [easy|exact S1].
Qed.
Ltac ext := unfold case_exts; cbn [In]; tauto.

(** what may differ without harm: the files in the two directories of a case and its three reports *)
Definition scratch (n p : str) : Prop := below (O ++ SLASH :: n ++ []) p = true \/ below (O ++ SLASH :: n ++ lit ".tmp") p = true \/
  In p [O ++ SLASH :: n ++ lit ".md"; O ++ SLASH :: n ++ lit ".txt"; O ++ SLASH :: n ++ lit ".log"].
Lemma area_apart n y : case_name n -> ~ area O n (E ++ SLASH :: n ++ y).
Proof. intros C (x & _ & X). apply prefix_split in X as (t & _ & X). rewrite in_case in X. revert X. apply name_vs_out; [exact Hdot|now apply proper_nonempty, C|apply C]. Qed.
Lemma scratch_area n p : scratch n p -> area O n p.
Proof.
  intros [B|[B|[<-|[<-|[<-|[]]]]]]; [exists []|exists (lit ".tmp")|exists (lit ".md")|exists (lit ".txt")|exists (lit ".log")]; (split; [ext|]); (apply prefix_refl || now apply prefix_below).
Qed.
Lemma scratch_ready n f h : In n names -> ready E O n f ->
  (forall p, own E o n p -> ~ scratch n p -> p <> bin n -> lookup p h = lookup p f) -> ready E O n h.
Proof.
  intros Hn R SAME. pose proof (named n Hn) as C.
  assert (OWE : forall x t, In x [[]; lit ".md"] -> t = [] \/ (exists r, t = SLASH :: r) -> lookup (E ++ SLASH :: n ++ x ++ t) h = lookup (E ++ SLASH :: n ++ x ++ t) f).
  { intros x t Hx Ht. assert (NA : ~ area O n (E ++ SLASH :: n ++ x ++ t)) by now apply area_apart. apply SAME.
    - apply (own_E E o n x); [destruct Hx as [<-|[<-|[]]]; [now left|right; now left]|]. destruct Ht as [->|[r ->]]; [rewrite app_nil_r; apply prefix_refl|]. right. exists r. now rewrite in_case.
    - intros X. now apply NA, scratch_area.
    - intros X. apply NA. rewrite X. exists (lit ".bin"). split; [ext|apply prefix_refl]. }
  assert (NB : forall x y r, In x [lit ".md"; lit ".txt"; lit ".log"; lit ".bin"] -> y = [] \/ y = lit ".tmp" -> (below (O ++ SLASH :: n ++ y) (O ++ SLASH :: n ++ x ++ SLASH :: r) = false)).
  { intros x y r Hx Hy. destruct (below _ _) eqn:B; [|reflexivity]. apply below_iff in B as [q X]. rewrite in_case, !at_case in X. apply app_inv_head in X.
    destruct Hx as [<-|[<-|[<-|[<-|[]]]]], Hy as [->| ->]; discriminate X. }
  destruct R as (R1 & R2 & R3 & R4 & R5). split; [|split; [|split; [|split]]].
  - pose proof (OWE [] [] ltac:(now left) ltac:(now left)) as X. rewrite !app_nil_r in X. now rewrite X.
  - refine (eq_trans (is_dir_ext _ h f _) R2). intros p B. apply below_iff in B as [r ->]. rewrite in_case. apply OWE; [right; now left|right; now exists r].
  - rewrite SAME; [exact R3| | |].
    + apply (own_O E o n []); [ext|]. rewrite app_nil_r. apply prefix_refl.
    + intros [B|[B|Y]].
      * rewrite app_nil_r in B. apply below_iff in B as [r X]. rewrite <- (app_nil_r (O ++ SLASH :: n)) in X at 1. apply app_inv_head in X. discriminate X.
      * apply below_iff in B as [r X]. rewrite in_case in X. rewrite <- (app_nil_r n) in X at 1. rewrite !at_case in X. apply app_inv_head in X. discriminate X.
      * rewrite <- (app_nil_r n) in Y at 1. cbn [In] in Y. rewrite !at_case in Y. destruct Y as [Y|[Y|[Y|[]]]]; apply app_inv_head in Y; discriminate Y.
    + rewrite <- (app_nil_r n) at 1. rewrite !at_case. intros Y. apply app_inv_head in Y. discriminate Y.
  - rewrite SAME; [exact R4| | |].
    + apply (own_O E o n (lit ".tmp")); [ext|apply prefix_refl].
    + intros [B|[B|Y]].
      * apply below_iff in B as [r X]. rewrite in_case, !at_case in X. apply app_inv_head in X. discriminate X.
      * apply below_iff in B as [r X]. rewrite in_case, !at_case in X. apply app_inv_head in X. discriminate X.
      * cbn [In] in Y. rewrite !at_case in Y. destruct Y as [Y|[Y|[Y|[]]]]; apply app_inv_head in Y; discriminate Y.
    + rewrite !at_case. intros Y. apply app_inv_head in Y. discriminate Y.
  - intros x Hx. refine (eq_trans (is_dir_ext _ h f _) (R5 x Hx)). intros p B. apply below_iff in B as [r ->]. rewrite in_case. apply SAME.
    + apply (own_O E o n x); [destruct Hx as [<-|[<-|[<-|[<-|[]]]]]; ext|]. right. exists r. now rewrite in_case.
    + intros [Y|[Y|Y]].
      * rewrite NB in Y; [discriminate|exact Hx|now left].
      * rewrite NB in Y; [discriminate|exact Hx|now right].
      * cbn [In] in Y. rewrite !at_case in Y. destruct Y as [Y|[Y|[Y|[]]]]; apply app_inv_head in Y; destruct Hx as [<-|[<-|[<-|[<-|[]]]]]; discriminate Y.
    + intros Y. rewrite !at_case in Y. apply app_inv_head in Y; destruct Hx as [<-|[<-|[<-|[<-|[]]]]]; discriminate Y.
Qed.

Lemma cut_effect c n a f h : In n names -> ready E O n f -> case_cut cc refloat E O c body n a f h ->
  (forall p, ~ area O n p -> lookup p h = lookup p f) /\ ready E O n h /\
  (lookup (bin n) h = lookup (bin n) f \/ exists res req rest g, run_case cc refloat E O c body n a f = Some (Ret (res, req, rest) g) /\ res <> FAIL).
Proof.
  intros Hn R [CH BN]. pose proof (named n Hn) as C. pose proof (proj1 C) as P.
  rewrite !case_path_eq in CH by (exact P || now apply HO). rewrite bin_path in CH, BN by exact C.
  assert (SAME : forall p, ~ scratch n p -> p <> bin n -> lookup p h = lookup p f).
  { intros p N1 N2. assert (DEC : {lookup p h = lookup p f} + {lookup p h <> lookup p f}) by repeat decide equality. destruct DEC as [X|X]; [exact X|].
    exfalso. destruct (CH p X) as [Y|[Y|Y]]; [apply N1; now left|apply N1; right; now left|]. cbn [In] in Y. destruct Y as [Y|[Y|[Y|[Y|[]]]]]; try (apply N1; right; right; cbn [In]; tauto). now apply N2. }
  split; [|split].
  - intros p NA. apply SAME; [intros X; now apply NA, scratch_area|]. intros ->. apply NA. exists (lit ".bin"). split; [ext|apply prefix_refl].
  - apply (scratch_ready n f h Hn R). auto.
  - assert (DEC : {lookup (bin n) h = lookup (bin n) f} + {lookup (bin n) h <> lookup (bin n) f}) by repeat decide equality. destruct DEC as [X|X]; [now left|right; now apply BN].
Qed.

(** ** the files that are left *)
Section Cut.
Variables c c0 : config.
Hypothesis HB0 : batch c0.
Hypothesis HA0 : forall v, auto c0 v = false.
Hypothesis HF0 : fail_fast c0 = false.
Hypothesis RCE : forall n a f, run_case cc refloat E O c body n a f = run_case cc refloat E O c0 body n a f.
Variable dur : str -> D.

Lemma todo_all l : forall rv fails recs a f x g,
  run_todo cc refloat E O O c body show_dur dur l rv fails recs a f = Some (Ret x g) -> todo_cut cc refloat E O O c body show_dur dur l fails recs a f g.
Proof.
  induction l as [|n l IH]; intros rv fails recs a f x g H; cbn [run_todo] in H; cbn [todo_cut]; [now injection H as _ <-|].
  destruct (run_case cc refloat E O c body n a f) as [[[[res req] a1] f1|f1]|]; [|discriminate|discriminate]. cbn [run_bind] in H. right. exists res, req, a1, f1. split; [reflexivity|].
  cbv zeta. right. destruct (is_abort req || _); [now injection H as _ <-|]. now apply IH in H.
Qed.

Lemma cut_states l : incl l names -> NoDup l -> forall fails recs a f h rv fails0 rv' recs' rest g,
  todo_cut cc refloat E O O c body show_dur dur l fails recs a f h ->
  run_todo cc refloat E O O c0 body show_dur dur l rv fails0 recs a f = Some (Ret (rv', recs', rest) g) ->
  (forall n, In n l -> ready E O n f) -> lookup (report_file O) f = Some (report_text show_dur recs) -> (forall r, In r recs -> ~ In (rec_name r) l) ->
  exists ran fresh more t u, l = ran ++ fresh /\ incl (map rec_name more) ran /\ incl more recs' /\
    report_text show_dur more = t ++ u /\ lookup (report_file O) h = Some (report_text show_dur recs ++ t) /\
    (forall n p, In n ran -> own E o n p -> lookup p h = lookup p g) /\
    (forall n, In n fresh -> ready E O n h /\ (forall p, area E n p -> lookup p h = lookup p f) /\ ((exists d, In (n, FAIL, d) recs') -> lookup (bin n) h = lookup (bin n) f)) /\
    (forall p, ~ booked E o p -> (forall n, In n l -> ~ own E o n p) -> lookup p h = lookup p f).
Proof.
  assert (UP : update c0 = false) by exact (HA0 OK).
  assert (BRF : booked E o (report_file O)) by (left; right; left; symmetry; apply path_join_name; [now apply HO|reflexivity]).
  assert (NBO : forall m p, In m names -> own E o m p -> ~ booked E o p) by (intros m p Hm; apply (no_nb E o Hdot names SEP NOUT m p Hm)).
  induction l as [|n l IH]; intros IN ND fails recs a f h rv fails0 rv' recs' rest g CUT H RD RF FR.
  - cbn [todo_cut] in CUT. subst h. cbn [run_todo] in H. injection H as <- <- <- <-. exists [], [], [], [], []. cbn [app map report_text flat_map]. rewrite app_nil_r.
    repeat split; auto; try easy.
  - assert (Hn : In n names) by (apply IN; now left). assert (NI : ~ In n l) by now apply NoDup_cons_iff in ND. assert (NDl : NoDup l) by now apply NoDup_cons_iff in ND.
    assert (IN' : incl l names) by (intros m Hm; apply IN; now right). assert (NE : forall m, In m l -> m <> n) by (intros m Hm ->; contradiction).
    cbn [run_todo] in H. destruct (run_case cc refloat E O c0 body n a f) as [[[[res req] a1] f1|f1]|] eqn:RC; [|discriminate|discriminate]. cbn [run_bind] in H.
    destruct (settled cc refloat E o HE Ho Hdot c0 HB0 UP body names SEP n a f res req a1 f1 Hn (RD n (or_introl eq_refl)) RC) as (_ & -> & -> & RF1 & _ & b0 & s0 & fr0 & CF0).
    destruct (case_snapshots cc refloat E o HE Ho Hdot c0 HB0 HA0 body names SEP n a f res NONE a f1 Hn (RD n (or_introl eq_refl)) RC) as (_ & _ & SN & _).
    rewrite HF0 in H. cbn [is_abort orb andb] in H. set (f2 := write_file (report_file O) _ f1) in H.
    assert (WO : forall t m p, In m names -> own E o m p -> lookup p (write_file (report_file O) t f1) = lookup p f1).
    { intros t m p Hm OW. apply (write_special refloat E o Hdot names SEP m); auto. apply (report_special E o HE Ho). }
    assert (F1O : forall m p, In m names -> m <> n -> own E o m p -> lookup p f1 = lookup p f) by (intros m p Hm N OW; apply (ran_other E o Hdot names SEP n m b0 s0 fr0 res f f1 p); auto).
    assert (RD2 : forall t m, In m l -> ready E O m (write_file (report_file O) t f1)).
    { intros t m Hm. apply (ready_local E o m f); [|now apply RD; right]. intros q OQ. rewrite (WO t m q) by auto. symmetry. apply (F1O m q); auto. }
    assert (FRM : forall p, own E o n p -> lookup p g = lookup p f1).
    { intros p OW. rewrite <- (WO (report_text show_dur (recs ++ [(n, res, dur n)])) n p Hn OW). fold f2.
      eapply (todo_frame cc refloat E o HE Ho Hdot c0 HB0 UP HF0 body show_dur dur names SEP l IN' n Hn NI _ _ _ _ f2 _ _ p); [|exact H|exact OW]. intros m Hm. now apply RD2. }
    destruct (todo_extends cc refloat E o c0 body show_dur dur l _ _ _ _ _ _ _ _ _ H) as (new & ER & INew).
    assert (F1R : forall p, (forall k, In k (n :: l) -> ~ own E o k p) -> lookup p f1 = lookup p f).
    { intros p NO. apply (cr_rest _ _ _ _ _ _ _ _ _ CF0); intros Z; apply (NO n (or_introl eq_refl)); solve [apply case_file_own; now left|now right]. }
    cbn [todo_cut] in CUT. destruct CUT as [CUT|(res' & req' & a' & f1' & RC' & CUT)].
    + (* in the case *)
      destruct (cut_effect c n a f h Hn (RD n (or_introl eq_refl)) CUT) as (OUT & RDH & BNH).
      assert (DJ : forall m p, In m l -> own E o m p -> lookup p h = lookup p f).
      { intros m p Hm OW. apply OUT. intros X. apply (NE m Hm). apply (own_disjoint E o Hdot names m n p); auto. now right. }
      exists [], (n :: l), [], [], []. cbn [app map report_text flat_map]. rewrite app_nil_r. split; [reflexivity|]. split; [easy|]. split; [easy|]. split; [reflexivity|]. split.
      { rewrite OUT; [exact RF|]. intros X. apply (NBO n (report_file O) Hn); [now right|exact BRF]. }
      split; [easy|]. split.
      * intros m [<-|Hm].
        -- split; [exact RDH|]. split.
           ++ intros p Hp. apply OUT. destruct Hp as (x & _ & Hp). apply prefix_split in Hp as (t & _ & ->). intros (y & _ & X). apply prefix_split in X as (t' & _ & X). rewrite !in_case in X. revert X.
              apply (name_vs_out E o Hdot); [apply proper_nonempty; now apply named|]. now apply named.
           ++ intros [d Hd]. destruct BNH as [X|(res1 & req1 & rest1 & g1 & RC1 & NF)]; [exact X|]. exfalso. rewrite RCE, RC in RC1. injection RC1 as <- <- <- <-.
              rewrite ER, !in_app_iff in Hd. destruct Hd as [[Hd|[Hd|[]]]|Hd].
              ** apply (FR _ Hd). now left.
              ** injection Hd as -> _. contradiction.
              ** apply NI, INew. apply (in_map rec_name) in Hd. exact Hd.
        -- split; [|split].
           ++ apply (ready_local E o m f); [|now apply RD; right]. intros q OQ. symmetry. now apply (DJ m).
           ++ intros p Hp. apply (DJ m p Hm). now left.
           ++ intros _. apply (DJ m _ Hm), bin_own.
      * intros p NB NO. apply OUT. intros X. apply (NO n (or_introl eq_refl)). now right.
    + rewrite RCE, RC in RC'. injection RC' as <- <- <- <-. cbv zeta in CUT. cbn [is_abort orb] in CUT. fold f2 in CUT.
      assert (LATER : forall t u, report_text show_dur (recs ++ [(n, res, dur n)]) = report_text show_dur recs ++ t ++ u -> h = write_file (report_file O) (report_text show_dur recs ++ t) f1 ->
        exists ran fresh more t u, n :: l = ran ++ fresh /\ incl (map rec_name more) ran /\ incl more recs' /\
          report_text show_dur more = t ++ u /\ lookup (report_file O) h = Some (report_text show_dur recs ++ t) /\
          (forall n p, In n ran -> own E o n p -> lookup p h = lookup p g) /\
          (forall n, In n fresh -> ready E O n h /\ (forall p, area E n p -> lookup p h = lookup p f) /\ ((exists d, In (n, FAIL, d) recs') -> lookup (bin n) h = lookup (bin n) f)) /\
          (forall p, ~ booked E o p -> (forall k, In k (n :: l) -> ~ own E o k p) -> lookup p h = lookup p f)).
      { intros t u ET ->. exists [n], l, [(n, res, dur n)], t, u. split; [reflexivity|]. split; [now intros m [<-|[]]; left|]. split.
        { intros r [<-|[]]. rewrite ER, !in_app_iff. left. right. now left. }
        split. { rewrite (report_text_app show_dur recs) in ET. now apply app_inv_head in ET. }
        split; [now rewrite lookup_write, str_eqb_refl|]. split.
        { intros m p [<-|[]] OW. rewrite (WO _ n p Hn OW). symmetry. now apply FRM. }
        split.
        - intros m Hm. split; [now apply RD2|]. split.
          + intros p Hp. rewrite (WO _ m p) by (auto || now left). apply (F1O m); auto. now left.
          + intros _. rewrite (WO _ m) by (auto || apply bin_own). apply (F1O m); auto. apply bin_own.
        - intros p NB NO. rewrite (write_booked E o _ _ f1 BRF p NB). now apply F1R. }
      destruct CUT as [(t & u & ET & EH)|CUT]; [now apply (LATER t u)|].
      match type of CUT with if ?b then _ else _ => destruct b end.
      * apply (LATER (report_text show_dur [(n, res, dur n)]) []); [now rewrite app_nil_r, report_text_app|]. now rewrite <- report_text_app.
      * assert (RF2 : lookup (report_file O) f2 = Some (report_text show_dur (recs ++ [(n, res, dur n)]))) by (unfold f2; now rewrite lookup_write, str_eqb_refl).
        assert (FR2 : forall r, In r (recs ++ [(n, res, dur n)]) -> ~ In (rec_name r) l).
        { intros r Hr. apply in_app_iff in Hr as [Hr|[<-|[]]]; [intros X; apply (FR r Hr); now right|exact NI]. }
        destruct (IH IN' NDl _ _ _ f2 h _ _ _ _ _ g CUT H (RD2 _) RF2 FR2) as (ran & fresh & more & t & u & EL & I1 & I2 & ET & EH & G1 & G2 & G3).
        exists (n :: ran), fresh, ((n, res, dur n) :: more), (report_text show_dur [(n, res, dur n)] ++ t), u. split; [now rewrite EL|]. split.
        { intros m [<-|Hm]; [now left|right; now apply I1]. }
        split. { intros r [<-|Hr]; [|now apply I2]. rewrite ER, !in_app_iff. left. right. now left. }
        split. { change ((n, res, dur n) :: more) with ([(n, res, dur n)] ++ more). now rewrite report_text_app, ET, <- app_assoc. }
        split. { now rewrite EH, report_text_app, <- app_assoc. }
        split.
        { intros m p [<-|Hm] OW; [|now apply (G1 m)]. rewrite FRM by exact OW. rewrite G3; [now apply (WO _ n)|now apply (NBO n)|]. intros k Hk OK'. apply (NE k Hk). apply (own_disjoint E o Hdot names k n p); auto. }
        split.
        -- intros m Hm. assert (Hml : In m l) by (rewrite EL; apply in_or_app; now right). destruct (G2 m Hm) as (Y1 & Y2 & Y3). split; [exact Y1|]. split.
           ++ intros p Hp. rewrite Y2 by exact Hp. unfold f2. rewrite (WO _ m p) by (auto || now left). apply (F1O m); auto. now left.
           ++ intros FL. rewrite Y3 by exact FL. unfold f2. rewrite (WO _ m) by (auto || apply bin_own). apply (F1O m); auto. apply bin_own.
        -- intros p NB NO. rewrite G3; [|exact NB|intros k Hk; apply NO; now right]. unfold f2. rewrite (write_booked E o _ _ f1 BRF p NB). now apply F1R.
Qed.
End Cut.

(** ** the run that continues *)
Lemma resume_run c0 c2 (dur dur2 : str -> D) metrics metrics2 selected answers answers2 f rv recs rest g h ran fresh k0 new :
  batch c0 -> (forall v, auto c0 v = false) -> fail_fast c0 = false ->
  batch c2 -> (forall v, auto c2 v = false) -> fail_fast c2 = false -> cont c2 = true -> point_error_pos c2 = point_error_pos c0 ->
  NoDup selected -> incl selected names -> deps_first deps selected -> (forall n, In n selected -> ready E O n f) ->
  run_async cc refloat E O O c0 body show_dur parse_dur sp dur all_names metrics selected answers f = Some (Ret (rv, recs, rest) g) ->
  let old := of_file parse_dur sp (lookup (report_file O) f) in
  let todo := snd (cases_to_done_and_todo old (cont c0) selected) in
  (forall n, In n todo <-> In n ran \/ In n fresh) -> of_file parse_dur sp (lookup (report_file O) h) = k0 ++ new ->
  (forall n r d, In (n, r, d) k0 -> exists d', In (n, r, d') (kept old todo)) -> (cont c0 = true -> k0 = kept old todo) ->
  (forall n r d, In (n, r, d) new -> In n ran /\ exists d', In (n, r, d') recs) ->
  (forall n p, In n ran -> own E o n p -> lookup p h = lookup p g) ->
  (forall n, In n fresh -> ready E O n h /\ (forall p, area E n p -> lookup p h = lookup p f) /\ ((exists d, In (n, FAIL, d) recs) -> lookup (bin n) h = lookup (bin n) f)) ->
  (forall p, ~ booked E o p -> (forall n, In n todo -> ~ own E o n p) -> lookup p h = lookup p f) ->
  (forall n, In n selected -> ready E O n h) /\
  exists recs2 g2, run_async cc refloat E O O c2 body show_dur parse_dur sp dur2 all_names metrics2 selected answers2 h = Some (Ret (rv, recs2, answers2) g2) /\
    (forall n r d, In (n, r, d) recs2 -> exists d', In (n, r, d') recs) /\
    (forall n r d, In n selected \/ k0 = kept old todo -> In (n, r, d) recs -> exists d', In (n, r, d') recs2) /\
    (forall p, ~ bookkeeping O p -> lookup p g2 = lookup p g).
Proof.
  intros HB0 HA0 HF0 HB2 HA2 HF2 HC2 HP2 ND INS ORD RD H old todo SPLIT OLD2 K1 K2 N1 RAN FRESH OTHER.
  set (kept0 := kept old todo) in *. set (todo2 := snd (done_and_todo (k0 ++ new) selected)).
  assert (UP : update c0 = false) by exact (HA0 OK).
  assert (INT : incl todo selected) by (intros n Hn; now apply todo_incl in Hn).
  assert (NAMES : incl todo names) by (intros n Hn; now apply INS, INT).
  assert (NDT : NoDup todo) by now apply todo_NoDup. assert (ORT : deps_first deps todo) by now apply todo_deps_first.
  assert (KT : forall n r d, In (n, r, d) k0 -> ~ In n todo).
  { intros n r d Hr. destruct (K1 n r d Hr) as [d' X]. apply kept_In in X as [_ X]. exact X. }
  assert (RINC : incl ran todo) by (intros n Hn; apply SPLIT; now left).
  assert (SUB : forall n, In n selected -> In n todo2 -> In n todo).
  { intros n Hn H2. destruct (in_dec (list_eq_dec N.eq_dec) n todo) as [I|NI]; [exact I|]. exfalso. destruct (not_todo _ _ _ n Hn NI) as (CC & r & l & EB & EK).
    apply todo_iff in H2 as [_ H2]. apply H2. exists r, l. split; [|exact EK]. rewrite by_name_app, (K2 CC). unfold kept0. rewrite by_name_kept by exact NI. rewrite EB.
    replace (by_name n new) with (@nil (case_rec D)); [now rewrite app_nil_r|]. symmetry. apply by_name_none. intros Y. apply in_map_iff in Y as ([[m q] d] & EM & Y). unfold rec_name in EM. cbn [fst] in EM. subst m.
    apply N1 in Y as [Y _]. now apply RINC in Y. }
  assert (SKIP : forall n, In n todo -> ~ In n todo2 -> In n ran /\ exists d, In (n, OK, d) new).
  { intros n Hn N2. assert (Hs : In n selected) by now apply INT. destruct (not_todo (k0 ++ new) true selected n Hs N2) as (_ & r & l & EB & EK).
    assert (Hr : In r (by_name n (k0 ++ new))) by (rewrite EB; now left). apply by_name_In in Hr as [Hr EN]. destruct r as [[m v] d]. unfold rec_name, rec_result in EN, EK. cbn [fst snd] in EN, EK. subst m v.
    apply in_app_iff in Hr as [Hr|Hr]; [now apply KT in Hr|]. destruct (N1 _ _ _ Hr) as [X _]. eauto. }
  set (keep := fun n => str_mem n todo2).
  assert (KEEP : filter keep todo = todo2).
  { unfold keep, todo2. rewrite todo_filter. unfold todo. destruct (cont c0) eqn:CC; cbn [cases_to_done_and_todo snd].
    - rewrite todo_filter. apply filter_within. intros n Hn K. assert (I : In n todo) by (apply SUB; [exact Hn|]; unfold todo2; rewrite todo_filter; now apply filter_In).
      unfold todo in I. cbn [cases_to_done_and_todo] in I. rewrite todo_filter in I. now apply filter_In in I.
    - pose proof (filter_within (fun _ => true) (pending_again (k0 ++ new)) selected (fun _ _ _ => eq_refl)) as Y.
      replace (filter (fun _ : str => true) selected) with selected in Y by (clear; induction selected as [|n s IH]; [reflexivity|]; cbn [filter]; now rewrite <- IH). exact Y. }
  assert (KI : forall n, keep n = true <-> In n todo2) by (intros n; apply str_mem_In).
  (* the first run *)
  assert (RG : forall n, In n todo -> ready E O n g).
  { destruct (parallel_sim cc refloat E o c0 body D show_dur parse_dur sp dur dur all_names (fun n => n) (fun n => n) metrics names deps
      selected answers f rv recs rest g HE Ho Hdot HB0 UP HF0 SEP NOUT) as (resP & gl & _ & _ & _ & _ & RS & _); auto.
    - intros n Hn. destruct (HN n Hn) as (A1 & A2 & A3). split; [exact A1|]. split; [exact A2|]. now apply fresh_deps.
    - intros n Hn. apply (RS n). exact Hn. }
  unfold run_async in H. fold old in H. fold todo in H. fold kept0 in H.
  destruct (run_todo _ _ _ _ _ _ _ _ _ _ _ _ _ _ _) as [[[[rv0 recs0] rest0] g0|g0]|] eqn:RT in H; [|discriminate|discriminate]. cbn [run_bind] in H. injection H as -> -> -> <-.
  assert (RF : report_file O = O ++ SLASH :: lit "cases.txt") by (apply path_join_name; [now apply HO|reflexivity]).
  set (f1 := write_file (report_file O) (report_text show_dur kept0) f) in *.
  set (h1 := write_file (report_file O) (report_text show_dur (kept (k0 ++ new) todo2)) h).
  assert (BC : booked E o (report_file O)) by (rewrite RF; left; right; now left).
  assert (ME : path_join O (lit "metrics.json") = O ++ SLASH :: lit "metrics.json") by now apply metrics_eq.
  assert (IE : path_join E (lit "index.md") = E ++ SLASH :: lit "index.md") by now apply index_eq.
  assert (W1 : forall p, ~ booked E o p -> lookup p f1 = lookup p f) by (intros p N; now apply (write_booked E o)).
  assert (W2 : forall p, ~ booked E o p -> lookup p h1 = lookup p h) by (intros p N; now apply (write_booked E o)).
  assert (WM : forall m k p, ~ booked E o p -> lookup p (write_file (path_join E (lit "index.md")) (index_text all_names) (write_file (path_join O (lit "metrics.json")) m k)) = lookup p k).
  { intros m k p N. rewrite IE, ME. rewrite (write_booked E o) by (exact N || apply booked_index). apply (write_booked E o); [apply booked_metrics|exact N]. }
  set (g := write_file (path_join E (lit "index.md")) _ _) in *.
  assert (WG : forall p, ~ booked E o p -> lookup p g = lookup p g0) by (intros p N; now apply WM).
  assert (NBS : forall n p, In n names -> own E o n p -> ~ booked E o p) by (intros n p Hn; apply (no_nb E o Hdot names SEP NOUT n p); auto).
  assert (Hdeps : forall n, In n names -> incl (deps n) names) by (intros n Hn; apply HN; exact Hn).
  assert (Hbody : forall n, In n names -> reads_fresh E O deps n (body n)) by (intros n Hn; apply HN; exact Hn).
  assert (RD1 : forall n, In n selected -> ready E O n f1).
  { intros n Hn. apply (ready_local E o n f); [|now apply RD]. intros p OW. symmetry. apply W1, (NBS n); auto. }
  assert (RDH : forall n, In n selected -> ready E O n h).
  { intros n Hn. destruct (in_dec (list_eq_dec N.eq_dec) n todo) as [T1|T1].
    - apply SPLIT in T1 as [T1|T1]; [|now apply FRESH]. apply (ready_local E o n g); [intros p OW; symmetry; now apply (RAN n)|]. now apply RG, RINC.
    - apply (ready_local E o n f); [|now apply RD]. intros p OW. symmetry. apply OTHER; [apply (NBS n); auto|].
      intros m Hm Z. apply T1. replace n with m; [exact Hm|]. apply (own_disjoint E o Hdot names m n p); auto. }
  split; [exact RDH|].
  destruct (resume_todo cc refloat E o HE Ho Hdot c0 c2 HB0 HB2 HA0 HA2 HF0 HF2 HP2 body show_dur dur dur2 names deps SEP NOUT Hdeps Hbody
    keep todo NAMES NDT ORT OK false kept0 answers f1 rv recs rest g0 OK false (kept (k0 ++ new) todo2) answers2 h1 RT) as (rs & g2 & M & ER2 & EV & RT2 & OWN & REST).
  { intros n Hn. split; [now apply RD1, INT|]. apply (ready_local E o n h); [intros p OW; symmetry; apply W2, (NBS n); auto|now apply RDH, INT]. }
  { intros n p Hn _ Hp. assert (NB : ~ booked E o p) by (apply (NBS n p); auto; now left). rewrite W1, W2 by exact NB.
    apply SPLIT in Hn as [S1|S1]; [|symmetry; now apply (FRESH n S1)].
    rewrite (RAN n p S1) by now left. rewrite WG by exact NB. rewrite <- (W1 p NB). symmetry.
    refine (snapshots_stay cc refloat E o HE Ho Hdot c0 HB0 HA0 HF0 body show_dur dur names SEP todo NAMES NDT _ _ _ _ f1 _ g0 _ RT n p _ Hp); auto. }
  { intros n Hn _ FL. assert (NB : ~ booked E o (bin n)) by (apply (NBS n); auto; apply bin_own). rewrite W1, W2 by exact NB.
    apply SPLIT in Hn as [S1|S1]; [right|left; now apply (FRESH n S1)]. rewrite (RAN n _ S1) by apply bin_own. now apply WG. }
  { intros n p Hn K OW. assert (NB : ~ booked E o p) by (apply (NBS n p); auto). rewrite W2 by exact NB.
    destruct (SKIP n Hn) as [S1 _]; [intros Y; apply KI in Y; congruence|]. rewrite (RAN n p S1 OW). now apply WG. }
  { intros n Hn NI. assert (NB : ~ booked E o (bin n)) by (apply (NBS n); auto; apply bin_own). rewrite W1, W2 by exact NB. symmetry. apply OTHER; [exact NB|].
    intros m Hm Z. apply NI. replace n with m; [exact Hm|]. apply (own_disjoint E o Hdot names m n (bin n)); auto. apply bin_own. }
  assert (ONE : forall n r d, In (n, r, d) recs -> In n todo -> In (n, r) rs).
  { intros n r d Hr Hn. rewrite ER2 in Hr. apply in_app_iff in Hr as [Hr|Hr]; [apply kept_In in Hr as [_ Hr]; now elim Hr|].
    apply in_map_iff in Hr as ([m q] & EY & Y). cbn [fst snd] in EY. now injection EY as -> -> _. }
  assert (FUN : forall n v w, In (n, v) rs -> In (n, w) rs -> v = w).
  { rewrite <- M in NDT. clear -NDT. induction rs as [|[m q] rs IH]; intros n v w H1 H2; [destruct H1|]. cbn [map fst] in NDT. apply NoDup_cons_iff in NDT as [N1 N2]. destruct H1 as [H1|H1], H2 as [H2|H2].
    - congruence.
    - injection H1 as -> ->. elim N1. now apply (in_map fst) in H2.
    - injection H2 as -> ->. elim N1. now apply (in_map fst) in H1.
    - now apply (IH N2 n). }
  assert (SKOK : forall n v, In (n, v) rs -> keep n = false -> v = OK).
  { intros n v Hr K. assert (I : In n todo) by (rewrite <- M; now apply (in_map fst) in Hr). destruct (SKIP n I) as [_ [d Y]]; [intros Y; apply KI in Y; congruence|].
    destruct (N1 _ _ _ Y) as [_ [d' Z]]. apply (FUN n); [exact Hr|]. now apply (ONE n OK d'). }
  rewrite KEEP in RT2. rewrite fold_skip in RT2 by (intros [m v] Hm K; exact (SKOK m v Hm K)). rewrite <- EV in RT2. set (rs2 := filter (fun y => keep (fst y)) rs) in *.
  exists (kept (k0 ++ new) todo2 ++ runs_of rs2 dur2), (write_file (path_join E (lit "index.md")) (index_text all_names) (write_file (path_join O (lit "metrics.json")) metrics2 g2)).
  split; [|split; [|split]].
  - unfold run_async. rewrite OLD2, HC2. cbn [cases_to_done_and_todo]. fold todo2. fold h1. rewrite RT2. reflexivity.
  - intros n v d Y. apply in_app_iff in Y as [Y|Y].
    + apply kept_In in Y as [Y _]. apply in_app_iff in Y as [Y|Y].
      * destruct (K1 _ _ _ Y) as [d' Z]. exists d'. rewrite ER2. apply in_or_app. now left.
      * now destruct (N1 _ _ _ Y).
    + unfold runs_of in Y. apply in_map_iff in Y as ([m q] & EY & Y). cbn [fst snd] in EY. injection EY as -> -> _. apply filter_In in Y as [Y _]. exists (dur n). rewrite ER2. apply in_or_app. right.
      apply in_map_iff. exists (n, v). now split.
  - intros n v d SEL Hr. destruct (in_dec (list_eq_dec N.eq_dec) n todo) as [T1|T1].
    + pose proof (ONE n v d Hr T1) as Y. destruct (keep n) eqn:K.
      * exists (dur2 n). apply in_or_app. right. apply in_map_iff. exists (n, v). split; [reflexivity|]. now apply filter_In.
      * rewrite (SKOK n v Y K). destruct (SKIP n T1) as [_ [d' Z]]; [intros Z; apply KI in Z; congruence|]. exists d'. apply in_or_app. left. apply kept_In. split; [apply in_or_app; now right|].
        unfold rec_name. cbn [fst]. intros Z'. apply KI in Z'. congruence.
    + rewrite ER2 in Hr. apply in_app_iff in Hr as [Hr|Hr].
      * exists d. apply in_or_app. left. apply kept_In. split; [|unfold rec_name; cbn [fst]; intros Z; apply T1; rewrite <- KEEP in Z; now apply filter_In in Z]. apply in_or_app. left.
        destruct SEL as [SEL| ->]; [|exact Hr]. destruct (cont c0) eqn:CC; [now rewrite (K2 eq_refl)|]. exfalso. apply T1. unfold todo. cbn [cases_to_done_and_todo snd]. exact SEL.
      * exfalso. apply T1. unfold runs_of in Hr. apply in_map_iff in Hr as ([m q] & EY & Y). cbn [fst snd] in EY. injection EY as -> _ _. rewrite <- M. now apply (in_map fst) in Y.
  - intros p NB. destruct (list_eq_dec N.eq_dec p (E ++ SLASH :: lit "index.md")) as [->|NI].
    + unfold g. rewrite IE, !lookup_write, !str_eqb_refl. reflexivity.
    + assert (NBK : ~ booked E o p) by (intros [Y|Y]; contradiction). rewrite WM, WG by exact NBK. destruct (some_own E o todo p) as [(n & Hn & OW)|NO]; [now apply (OWN n)|].
      destruct (REST p NBK NO) as [-> ->]. rewrite W1, W2 by exact NBK. now apply OTHER.
Qed.
End Kill.
