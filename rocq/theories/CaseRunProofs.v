(** TestCaseRun refines a small machine over (cursor, current line, finished lines). *)
From Verif Require Export ReaderProofs CaseRunSpec TokenizerSpec.

Section Proofs.
Variable cc : CharClass.

(** ** The abstract machine *)
Record ast := {
  a_k : nat; a_j : nat;            (* snapshot cursor: line and token *)
  a_cur : str;                     (* unfinished line *)
  a_d : option nat; a_e : option nat;
  a_lc : bool;                     (* was the last token checked *)
  a_recs : list line_rec
}.

Inductive prim := PTok (check : bool) (t : str) | PFail | PDiff | PMove (k j : nat).

Definition first_mark (m : option nat) (p : nat) : option nat :=
  match m with None => Some p | Some _ => m end.

Definition has_text (T : option str) : bool := match T with Some _ => true | None => false end.

Definition astep (T : option str) (a : ast) (p : prim) : ast :=
  match p with
  | PTok c t =>
      let d := if has_text T && token_differs t (exp_tok cc T (a_k a) (a_j a)) && c
               then first_mark (a_d a) (length (a_cur a)) else a_d a in
      if str_eqb t [NL] then
        {| a_k := Nat.min (S (a_k a)) (nlines T); a_j := 0; a_cur := []; a_d := None;
           a_e := None; a_lc := c;
           a_recs := a_recs a ++ [{| lr_text := a_cur a; lr_exp := line_at T (a_k a);
                                     lr_diff := d; lr_err := a_e a |}] |}
      else {| a_k := a_k a; a_j := S (a_j a); a_cur := a_cur a ++ t; a_d := d; a_e := a_e a;
              a_lc := c; a_recs := a_recs a |}
  | PFail => {| a_k := a_k a; a_j := a_j a; a_cur := a_cur a; a_d := a_d a;
                a_e := first_mark (a_e a) (length (a_cur a)); a_lc := a_lc a; a_recs := a_recs a |}
  | PDiff => {| a_k := a_k a; a_j := a_j a; a_cur := a_cur a;
                a_d := first_mark (a_d a) (length (a_cur a)); a_e := a_e a; a_lc := a_lc a;
                a_recs := a_recs a |}
  | PMove k j => {| a_k := k; a_j := j; a_cur := a_cur a; a_d := a_d a; a_e := a_e a;
                    a_lc := a_lc a; a_recs := a_recs a |}
  end.

Definition asteps (T : option str) (ps : list prim) (a : ast) : ast := fold_left (astep T) ps a.

Lemma asteps_app T p q a : asteps T (p ++ q) a = asteps T q (asteps T p a).
Proof. apply fold_left_app. Qed.

(** prims that may occur: tokens have a newline only alone, moves stay in the file *)
Definition good_prim (T : option str) (p : prim) : Prop :=
  match p with
  | PTok _ t => In NL t -> t = [NL]
  | PMove k _ => k <= nlines T
  | _ => True
  end.

(** the simulation relation *)
Record Rel (T : option str) (a : ast) (s : state) : Prop := {
  R_rd : rd s = rpos cc T (a_k a) (a_j a);
  R_k : a_k a <= nlines T;
  R_cur : out_line s = a_cur a;
  R_d : line_diff s = a_d a;
  R_e : line_error s = a_e a;
  R_lc : last_checked s = a_lc a;
  R_acc : accounts (a_recs a) s
}.

Lemma flat_map_snoc {A B} (f : A -> list B) l x : flat_map f (l ++ [x]) = flat_map f l ++ f x.
Proof. rewrite flat_map_app. simpl. now rewrite app_nil_r. Qed.

Lemma lines_text_snoc l x : lines_text (l ++ [x]) = lines_text l ++ x ++ [NL].
Proof. unfold lines_text. now rewrite flat_map_snoc. Qed.

Lemma filter_snoc {A} (f : A -> bool) l x :
  length (filter f (l ++ [x])) = length (filter f l) + (if f x then 1 else 0).
Proof. rewrite filter_app, app_length. simpl. destruct (f x); reflexivity. Qed.

Lemma do_diff_Rel T a s : Rel T a s -> Rel T (astep T a PDiff) (do_diff s).
Proof.
  intros [H1 H2 H3 H4 H5 H6 [A1 A2 A3 A4 A5 A6]]. unfold do_diff. rewrite H4.
  destruct a as [k j cur d e lc recs]; simpl in *. destruct d as [p|]; simpl.
  - repeat (constructor; simpl; auto); tauto.
  - repeat (constructor; simpl; auto); try tauto. now rewrite H3.
Qed.

Lemma do_fail_Rel T a s : Rel T a s -> Rel T (astep T a PFail) (do_fail s).
Proof.
  intros [H1 H2 H3 H4 H5 H6 [A1 A2 A3 A4 A5 A6]]. unfold do_fail. rewrite H5.
  destruct a as [k j cur d e lc recs]; simpl in *. destruct e as [p|]; simpl.
  - repeat (constructor; simpl; auto); tauto.
  - repeat (constructor; simpl; auto); try tauto. now rewrite H3.
Qed.

Lemma set_rd_Rel T a s k j :
  Rel T a s -> k <= nlines T -> Rel T (astep T a (PMove k j)) (set_rd (rpos cc T k j) s).
Proof.
  intros [H1 H2 H3 H4 H5 H6 [A1 A2 A3 A4 A5 A6]] Hk.
  destruct a as [k0 j0 cur d e lc recs]; simpl in *.
  repeat (constructor; simpl; auto); tauto.
Qed.

Definition b2n (b : bool) : nat := if b then 1 else 0.

Lemma commit_fields s :
  rd (commit_line cc s) = next_exp_line cc (last_checked s) (rd s) /\
  out (commit_line cc s) = out s ++ out_line s ++ [NL] /\
  out_line (commit_line cc s) = [] /\
  point_pos (commit_line cc s) = point_pos s /\
  line_diff (commit_line cc s) = None /\
  line_error (commit_line cc s) = None /\
  line_number (commit_line cc s) = S (line_number s) /\
  diffs (commit_line cc s) = diffs s + b2n (marked (line_diff s)) /\
  errors (commit_line cc s) = errors s + b2n (marked (line_error s)) /\
  last_checked (commit_line cc s) = last_checked s.
Proof.
  unfold commit_line. destruct (line_error s) as [e|] eqn:Ee; [|destruct (line_diff s) as [d|] eqn:Ed].
  - destruct (point_pos s) eqn:Ep; repeat split; simpl; auto; destruct (line_diff s); reflexivity.
  - destruct (point_pos s) eqn:Ep; repeat split; simpl; auto.
  - repeat split; simpl; auto.
Qed.

Lemma commit_rep s :
  rep (commit_line cc s) =
  rep s ++ entry_text (point_pos s)
    {| lr_text := out_line s; lr_exp := r_line (rd s); lr_diff := line_diff s;
       lr_err := line_error s |}.
Proof.
  unfold commit_line, entry_text, rec_differs, rec_fails.
  cbn [lr_text lr_exp lr_diff lr_err].
  destruct (line_error s) as [e|] eqn:Ee; [|destruct (line_diff s) as [d|] eqn:Ed].
  - cbn [marked]. rewrite orb_true_r.
    destruct (point_pos s);
      cbn [rep set_line_diff set_line_error write_line report add_counts];
      unfold flagged_line; cbn [out_line rd add_counts];
      rewrite ?app_nil_r; repeat rewrite <- app_assoc; reflexivity.
  - cbn [marked orb].
    destruct (point_pos s);
      cbn [rep set_line_diff set_line_error write_line report add_counts];
      unfold flagged_line; cbn [out_line rd add_counts];
      rewrite ?app_nil_r; repeat rewrite <- app_assoc; reflexivity.
  - cbn [marked orb rep write_line report]. repeat rewrite <- app_assoc. reflexivity.
Qed.

Lemma commit_line_Rel T k j cur d e lc recs s :
  Rel T {| a_k := k; a_j := j; a_cur := cur; a_d := d; a_e := e; a_lc := lc; a_recs := recs |} s ->
  Rel T {| a_k := Nat.min (S k) (nlines T); a_j := 0; a_cur := []; a_d := None; a_e := None;
           a_lc := lc;
           a_recs := recs ++ [{| lr_text := cur; lr_exp := line_at T k; lr_diff := d; lr_err := e |}] |}
        (commit_line cc s).
Proof.
  intros [H1 H2 H3 H4 H5 H6 [A1 A2 A3 A4 A5 [A6 A7]]].
  cbn [a_k a_j a_cur a_d a_e a_lc a_recs] in *.
  destruct (commit_fields s) as (C1 & C2 & C3 & C4 & C5 & C6 & C7 & C8 & C9 & C10).
  assert (Hl : r_line (rd s) = line_at T k) by (rewrite H1; apply r_line_rpos).
  constructor; cbn [a_k a_j a_cur a_d a_e a_lc a_recs]; auto; try lia; try congruence.
  - rewrite C1, H1. now apply next_exp_line_rpos.
  - constructor.
    + rewrite C2, map_app. cbn [map]. rewrite lines_text_snoc, A1, H3. reflexivity.
    + rewrite commit_rep, flat_map_snoc, C4, A2, H3, H4, H5, Hl. reflexivity.
    + rewrite C8, filter_snoc, A3, H4. unfold rec_differs. reflexivity.
    + rewrite C9, filter_snoc, A4, H5. unfold rec_fails. reflexivity.
    + rewrite C7, app_length, A5. simpl. lia.
    + split; [|rewrite C3; easy]. apply Forall_app; split; [exact A6|].
      constructor; [|constructor]. cbn. now rewrite <- H3.
Qed.

Lemma feed_token_Rel T a s c t :
  Rel T a s -> (In NL t -> t = [NL]) -> Rel T (astep T a (PTok c t)) (feed_token cc c s t).
Proof.
  intros HR Ht. unfold feed_token. rewrite (R_rd _ _ _ HR), next_exp_token_rpos.
  rewrite r_text_rpos.
  set (s1 := set_last_checked c (set_rd (rpos cc T (a_k a) (S (a_j a))) s)).
  set (a1 := {| a_k := a_k a; a_j := S (a_j a); a_cur := a_cur a; a_d := a_d a; a_e := a_e a;
                a_lc := c; a_recs := a_recs a |}).
  assert (H1 : Rel T a1 s1).
  { destruct HR as [H1 H2 H3 H4 H5 H6 [A1 A2 A3 A4 A5 A6]]. subst a1 s1.
    repeat (constructor; simpl; auto); tauto. }
  set (bad := has_text T && token_differs t (exp_tok cc T (a_k a) (a_j a)) && c).
  set (a2 := {| a_k := a_k a; a_j := S (a_j a); a_cur := a_cur a;
                a_d := if bad then first_mark (a_d a) (length (a_cur a)) else a_d a;
                a_e := a_e a; a_lc := c; a_recs := a_recs a |}).
  change (match T with Some _ => true | None => false end) with (has_text T). fold bad.
  assert (H2 : Rel T a2 (if bad then do_diff s1 else s1)).
  { destruct bad; [|exact H1]. apply (do_diff_Rel T a1 s1 H1). }
  unfold astep. fold bad. destruct (str_eqb_spec t [NL]) as [->|Hne].
  - apply (commit_line_Rel T (a_k a) (S (a_j a))). exact H2.
  - destruct H2 as [G1 G2 G3 G4 G5 G6 [A1 A2 A3 A4 A5 [A6 A7]]]. subst a2.
    repeat (constructor; simpl in *; auto).
    + now rewrite G3.
    + rewrite in_app_iff. intros [Hi|Hi]; [auto|]. apply Hne. auto.
Qed.

(** ** API calls as primitive steps *)

(** [s'] is reached from [s] (related to [a]) by the primitives [ps] *)
Definition reaches (T : option str) (a : ast) (ps : list prim) (s' : state) : Prop :=
  Forall (good_prim T) ps /\ Rel T (asteps T ps a) s'.

Lemma reaches_nil T a s : Rel T a s -> reaches T a [] s.
Proof. intros H; split; [constructor|exact H]. Qed.

Lemma reaches_app T a p s1 q s2 :
  reaches T a p s1 -> reaches T (asteps T p a) q s2 -> reaches T a (p ++ q) s2.
Proof.
  intros [H1 H2] [H3 H4]. split; [apply Forall_app; auto|]. now rewrite asteps_app.
Qed.

Definition toks (c : bool) (ts : list str) : list prim := map (PTok c) ts.

Lemma feed_tokens_Rel T c ts : forall a s,
  Rel T a s -> Forall (fun t => In NL t -> t = [NL]) ts ->
  reaches T a (toks c ts) (fold_left (feed_token cc c) ts s).
Proof.
  induction ts as [|t ts IH]; intros a s HR Hts; [now apply reaches_nil|].
  apply Forall_cons_iff in Hts as [Ht Hts]. simpl.
  destruct (IH _ _ (feed_token_Rel T a s c t HR Ht) Hts) as [H1 H2].
  split; [constructor; [exact Ht|exact H1]|exact H2].
Qed.

Hypothesis OK : TokClassOK cc.

Lemma tokenize_good x ts : tokenize cc x = Some ts -> Forall (fun t => In NL t -> t = [NL]) ts.
Proof.
  intros H. apply tokenize_iff, tokenization_tokens in H; auto.
  revert H. apply Forall_impl. tauto.
Qed.

Lemma tokenize_concat x ts : tokenize cc x = Some ts -> concat ts = x.
Proof. intros H. eapply tokenization_concat. eapply tokenize_iff; eauto. Qed.

Lemma tokenize_NL : tokenize cc [NL] = Some [[NL]].
Proof.
  change (tokenize cc ([] ++ NL :: []) = Some ([] ++ [NL] :: [])).
  apply tokenize_app_nl; auto.
Qed.

(** what a feed does, when it returns *)
Lemma feed_reaches T a s c x s' :
  Rel T a s -> feed cc c x s = Some s' ->
  exists ts, tokenize cc x = Some ts /\ reaches T a (toks c ts) s'.
Proof.
  intros HR. unfold feed. destruct (tokenize cc x) as [ts|] eqn:E; [|discriminate].
  intros H. inversion H; subst. exists ts. split; [reflexivity|].
  apply feed_tokens_Rel; [exact HR|]. eapply tokenize_good; eauto.
Qed.

Lemma feed_exact T a s c x ts :
  Rel T a s -> tokenize cc x = Some ts ->
  exists s', feed cc c x s = Some s' /\ reaches T a (toks c ts) s'.
Proof.
  intros HR E. unfold feed. rewrite E. eexists; split; [reflexivity|].
  apply feed_tokens_Rel; [exact HR|]. eapply tokenize_good; eauto.
Qed.

Lemma feedln_reaches T a s c x s' :
  Rel T a s -> bind (feed cc c x s) (feed cc c [NL]) = Some s' ->
  exists ts, tokenize cc x = Some ts /\ reaches T a (toks c (ts ++ [[NL]])) s'.
Proof.
  intros HR H. destruct (feed cc c x s) as [s1|] eqn:E; [|discriminate]. simpl in H.
  destruct (feed_reaches T a s c x s1 HR E) as (ts & Hts & H1).
  destruct (feed_reaches T _ s1 c [NL] s' (proj2 H1) H) as (ts2 & Hts2 & H2).
  rewrite tokenize_NL in Hts2. inversion Hts2; subst.
  exists ts. split; [exact Hts|]. unfold toks. rewrite map_app. eapply reaches_app; eauto.
Qed.

Lemma feedln_exact T a s c x ts :
  Rel T a s -> tokenize cc x = Some ts ->
  exists s', bind (feed cc c x s) (feed cc c [NL]) = Some s' /\
             reaches T a (toks c (ts ++ [[NL]])) s'.
Proof.
  intros HR E. destruct (feed_exact T a s c x ts HR E) as (s1 & E1 & H1).
  destruct (feed_exact T _ s1 c [NL] _ (proj2 H1) tokenize_NL) as (s2 & E2 & H2).
  exists s2. rewrite E1. simpl. split; [exact E2|]. unfold toks. rewrite map_app.
  eapply reaches_app; eauto.
Qed.

Lemma op_seek_exact T a s ok b e :
  Rel T a s ->
  exists k j s', op_seek cc ok b e s = Some s' /\ reaches T a [PMove k j] s' /\
    s' = set_rd (rpos cc T k j) s.
Proof.
  intros HR. unfold op_seek, with_reader. rewrite (R_rd _ _ _ HR).
  destruct (seek_total cc (last_checked s) ok b e T (a_k a) (a_j a) (R_k _ _ _ HR))
    as (k & j & Hk & E). rewrite E. exists k, j. eexists. split; [reflexivity|].
  split; [|reflexivity].
  split; [constructor; [exact Hk|constructor]|]. now apply set_rd_Rel.
Qed.

Lemma op_seek0_exact T a s ok :
  Rel T a s ->
  let ls := match T with Some t => rlines t | None => [] end in
  exists s', op_seek cc ok 0 None s = Some s' /\
    reaches T a [PMove (seek_pos ok ls (a_k a))
       (match find_from ok (skipn (a_k a) ls) (a_k a) with
        | Some k' => if Nat.eqb k' (a_k a) then a_j a else 0 | None => 0 end)] s'.
Proof.
  intros HR. unfold op_seek, with_reader. pose proof (R_k _ _ _ HR) as Hk.
  rewrite (R_rd _ _ _ HR). destruct T as [t|].
  - cbn zeta. destruct (seek_rpos cc (last_checked s) ok t (a_k a) (a_j a) Hk) as (j' & E & ->).
    rewrite E. eexists. split; [reflexivity|].
    split; [constructor; [|constructor]|]; [|apply set_rd_Rel; [exact HR|]];
      simpl; now apply seek_pos_le.
  - cbn zeta. simpl in Hk.
    assert (Hp : seek_pos ok [] (a_k a) = 0).
    { unfold seek_pos. rewrite skipn_nil, firstn_nil. simpl. lia. }
    assert (E : seek cc (last_checked s) ok 0 None (rpos cc None (a_k a) (a_j a)) =
                Some (rpos cc None (a_k a) (a_j a))) by reflexivity.
    rewrite E. eexists; split; [reflexivity|]. rewrite Hp.
    split; [constructor; [simpl; lia|constructor]|].
    match goal with |- context [PMove 0 ?j] =>
      change (rpos cc None (a_k a) (a_j a)) with (rpos cc None 0 j) end.
    apply set_rd_Rel; [exact HR|simpl; lia].
Qed.

Lemma op_jump_exact T a s n :
  Rel T a s ->
  exists s', op_jump cc n s = Some s' /\
    reaches T a [PMove (Nat.min (n - 1) (nlines T)) (if Nat.eqb n (S (a_k a)) then a_j a else 0)] s'.
Proof.
  intros HR. unfold op_jump, with_reader. pose proof (R_k _ _ _ HR) as Hk.
  rewrite (R_rd _ _ _ HR). destruct T as [t|].
  - rewrite jump_rpos by exact Hk. eexists; split; [reflexivity|].
    split; [constructor; [simpl; lia|constructor]|]. apply set_rd_Rel; [exact HR|simpl; lia].
  - rewrite jump_rpos_None. eexists; split; [reflexivity|].
    split; [constructor; [simpl; lia|constructor]|].
    set (j' := if Nat.eqb n (S (a_k a)) then a_j a else 0).
    change (rpos cc None (a_k a) (a_j a)) with (rpos cc None (Nat.min (n - 1) 0) j').
    apply set_rd_Rel; [exact HR|simpl; lia].
Qed.

(** ** Text of primitives *)
Definition prim_text (p : prim) : str := match p with PTok _ t => t | _ => [] end.
Definition prims_text (ps : list prim) : str := flat_map prim_text ps.

Lemma prims_text_app p q : prims_text (p ++ q) = prims_text p ++ prims_text q.
Proof. apply flat_map_app. Qed.

Lemma prims_text_toks c ts : prims_text (toks c ts) = concat ts.
Proof. induction ts as [|t ts IH]; simpl; [reflexivity|]. now rewrite IH. Qed.

(** ** Properties of primitive sequences used for the API *)
Definition harmless (p : prim) : bool :=
  match p with PTok c _ => negb c | PMove _ _ => true | PFail | PDiff => false end.

Lemma harmless_toks ts : forallb harmless (toks false ts) = true.
Proof. induction ts; simpl; auto. Qed.

(** an error mark followed by a line end *)
Inductive fails_line : list prim -> Prop :=
| fl_here ts q c : fails_line (PFail :: toks c (ts ++ [[NL]]) ++ q)
| fl_later p ps : fails_line ps -> fails_line (p :: ps).

Lemma fails_line_app p q : fails_line q -> fails_line (p ++ q).
Proof. intros H; induction p; simpl; [exact H|now constructor]. Qed.

Section Ops.
Variable T : option str.
Variable refloat : str -> option str.

(** calls that never compare nor mark anything *)
Definition unchecked_op (o : op) : bool :=
  match o with
  | OI _ | OIln _ | OIfloatln _ _ | OTmsln false _ _ | OAssertln true _ | OMust _ true _
  | OJump _ | OSeek _ _ _ => true
  | _ => false
  end.

(** calls that must fail the test *)
Definition failing_op (o : op) : bool :=
  match o with OTmsln true _ _ | OAssertln false _ | OMust _ false _ => true | _ => false end.

Definition started (a : ast) : bool := match a_recs a with [] => false | _ => true end.

(** everything the theorems need to know about the primitives of one call *)
Definition op_ok (a : ast) (o : op) (ps : list prim) : Prop :=
  op_writes cc (started a) o (prims_text ps) /\
  (unchecked_op o = true -> forallb harmless ps = true) /\
  (failing_op o = true -> fails_line ps) /\
  (o = OFail -> ps = [PFail]) /\ (o = ODiff -> ps = [PDiff]).

Lemma tlnl x ts c : tokenize cc x = Some ts -> prims_text (toks c (ts ++ [[NL]])) = x ++ [NL].
Proof.
  intros H. rewrite prims_text_toks, concat_app. simpl. now rewrite (tokenize_concat x ts H).
Qed.
Lemma ttext x ts c : tokenize cc x = Some ts -> prims_text (toks c ts) = x.
Proof. intros H. now rewrite prims_text_toks, (tokenize_concat x ts H). Qed.

Lemma bind_Some {A B} (x : option A) (f : A -> option B) y :
  bind x f = Some y -> exists a, x = Some a /\ f a = Some y.
Proof. destruct x; simpl; [eauto|discriminate]. Qed.

(** steps that write a given text *)
Definition writes_text (f : state -> option state) (w : str) : Prop :=
  forall a s s', Rel T a s -> f s = Some s' ->
  exists ps, reaches T a ps s' /\ prims_text ps = w.

Lemma writes_feed c x : writes_text (feed cc c x) x.
Proof.
  intros a s s' HR H. destruct (feed_reaches T a s c x s' HR H) as (ts & Ht & Hr).
  eexists; split; [exact Hr|]. now apply ttext.
Qed.

Lemma writes_feedln c x : writes_text (fun s => bind (feed cc c x s) (feed cc c [NL])) (x ++ [NL]).
Proof.
  intros a s s' HR H. destruct (feedln_reaches T a s c x s' HR H) as (ts & Ht & Hr).
  eexists; split; [exact Hr|]. now apply tlnl.
Qed.

Lemma writes_bind f g w1 w2 :
  writes_text f w1 -> writes_text g w2 -> writes_text (fun s => bind (f s) g) (w1 ++ w2).
Proof.
  intros Hf Hg a s s' HR H. apply bind_Some in H as (s1 & E1 & E2).
  destruct (Hf a s s1 HR E1) as (p & Hp & Tp).
  destruct (Hg _ s1 s' (proj2 Hp) E2) as (q & Hq & Tq).
  exists (p ++ q). split; [eapply reaches_app; eauto|]. now rewrite prims_text_app, Tp, Tq.
Qed.

Lemma writes_seek ok b e : writes_text (op_seek cc ok b e) [].
Proof.
  intros a s s' HR H. destruct (op_seek_exact T a s ok b e HR) as (k & j & s1 & E & Hr & _).
  rewrite E in H; inversion H; subst. eexists; split; [exact Hr|]. reflexivity.
Qed.

Lemma writes_jump n : writes_text (op_jump cc n) [].
Proof.
  intros a s s' HR H. destruct (op_jump_exact T a s n HR) as (s1 & E & Hr).
  rewrite E in H; inversion H; subst. eexists; split; [exact Hr|]. reflexivity.
Qed.

Lemma writes_steps fs ws :
  Forall2 writes_text fs ws -> writes_text (steps fs) (concat ws).
Proof.
  induction 1 as [|f w fs ws Hf _ IH].
  - intros a s s' HR H. inversion H; subst. exists []. split; [now apply reaches_nil|reflexivity].
  - apply (writes_bind f (steps fs) w (concat ws)); assumption.
Qed.

Lemma writes_ext f g w : (forall s, f s = g s) -> writes_text f w -> writes_text g w.
Proof. intros E H a s s' HR Hg. rewrite <- E in Hg. now apply (H a s). Qed.

Lemma writes_eq f w w' : w = w' -> writes_text f w -> writes_text f w'.
Proof. now intros ->. Qed.

Lemma writes_fail : writes_text (fun s => Some (do_fail s)) [].
Proof.
  intros a s s' HR H. inversion H; subst. exists [PFail]. split; [|reflexivity].
  split; [repeat constructor|]. now apply do_fail_Rel.
Qed.
Lemma writes_diff : writes_text (fun s => Some (do_diff s)) [].
Proof.
  intros a s s' HR H. inversion H; subst. exists [PDiff]. split; [|reflexivity].
  split; [repeat constructor|]. now apply do_diff_Rel.
Qed.

Lemma writes_tln x : writes_text (op_tln cc x) (x ++ [NL]).
Proof. apply writes_feedln. Qed.
Lemma writes_iln x : writes_text (op_iln cc x) (x ++ [NL]).
Proof. apply writes_feedln. Qed.

Lemma writes_anchorln x : writes_text (op_anchorln cc x) (x ++ [NL]).
Proof. apply (writes_bind _ _ [] _ (writes_seek _ _ _) (writes_tln x)). Qed.
Lemma writes_anchor x : writes_text (op_anchor cc x) x.
Proof. apply (writes_bind _ _ [] _ (writes_seek _ _ _) (writes_feed true x)). Qed.

Lemma writes_tlist items p :
  writes_text (op_tlist cc items p) (lines_text (map (fun i => p ++ i) items)).
Proof.
  unfold op_tlist. eapply writes_eq; [|apply (writes_steps _ (map (fun i => (p ++ i) ++ [NL]) items))].
  - unfold lines_text. rewrite flat_map_concat_map, map_map. reflexivity.
  - induction items as [|i items IH]; simpl; constructor; [apply writes_tln|exact IH].
Qed.

Lemma Rel_started a s : Rel T a s -> Nat.ltb 0 (line_number s) = started a.
Proof.
  intros HR. rewrite (acc_number _ _ (R_acc _ _ _ HR)). unfold started.
  destruct (a_recs a); reflexivity.
Qed.

Lemma header_writes h a s s' :
  Rel T a s -> op_header cc h s = Some s' ->
  exists ps, reaches T a ps s' /\ prims_text ps = header_text (started a) h.
Proof.
  intros HR. unfold op_header. rewrite (Rel_started a s HR).
  set (s1 := if started a then _ else s). intros H.
  assert (H1 : exists p, reaches T a p s1 /\ prims_text p = if started a then [NL] else []).
  { subst s1. destruct (started a).
    - eexists [PTok _ [NL]]. split; [|reflexivity].
      split; [constructor; [simpl; auto|constructor]|]. apply feed_token_Rel; auto.
    - exists []. split; [now apply reaches_nil|reflexivity]. }
  destruct H1 as (p & Hp & Tp).
  destruct (writes_bind _ _ _ _ (writes_anchorln h) (writes_tln []) _ s1 s' (proj2 Hp) H)
    as (q & Hq & Tq).
  exists (p ++ q). split; [eapply reaches_app; eauto|].
  rewrite prims_text_app, Tp, Tq. unfold header_text. now rewrite <- !app_assoc.
Qed.

(** tset *)
Lemma tset_scan_total fuel prefix lc t : forall k j cmp,
  k <= length (rlines t) -> length (rlines t) - k <= fuel ->
  exists cmp' k' j', tset_scan cc fuel prefix lc (rpos cc (Some t) k j) cmp =
    Some (cmp', rpos cc (Some t) k' j') /\ k' <= length (rlines t).
Proof.
  induction fuel as [|fuel IH]; intros k j cmp Hk Hf.
  - cbn [tset_scan]. rewrite r_line_rpos. simpl line_at.
    rewrite (proj2 (nth_error_None _ _)) by lia. eexists _, _, _; split; [reflexivity|lia].
  - cbn [tset_scan]. rewrite r_line_rpos. simpl line_at.
    destruct (nth_error (rlines t) k) as [l|] eqn:E.
    + assert (k < length (rlines t)) by (apply nth_error_Some; congruence).
      destruct (starts_with prefix l).
      * rewrite next_exp_line_rpos by (simpl; lia). simpl nlines.
        replace (Nat.min (S k) (length (rlines t))) with (S k) by lia.
        apply IH; lia.
      * eexists _, _, _; split; [reflexivity|lia].
    + eexists _, _, _; split; [reflexivity|lia].
Qed.

Lemma writes_tset_items items prefix : forall cmp a s cmp' s',
  Rel T a s -> tset_items cc items prefix cmp s = Some (cmp', s') ->
  exists ps, reaches T a ps s' /\ prims_text ps = lines_text (map (fun i => prefix ++ i) items).
Proof.
  induction items as [|i items IH]; intros cmp a s cmp' s' HR H.
  - simpl in H. inversion H; subst. exists []. split; [now apply reaches_nil|reflexivity].
  - cbn [tset_items] in H. change (lines_text (map (fun i0 => prefix ++ i0) (i :: items)))
      with (((prefix ++ i) ++ [NL]) ++ lines_text (map (fun i0 => prefix ++ i0) items)).
    destruct cmp as [[compare [b e]]|].
    + destruct (str_mem i compare).
      * apply bind_Some in H as (s2 & E2 & E3).
        destruct (writes_bind _ _ _ _ (writes_seek _ b (Some e)) (writes_iln (prefix ++ i))
                    a s s2 HR E2) as (p & Hp & Tp).
        destruct (IH _ _ _ _ _ (proj2 Hp) E3) as (q & Hq & Tq).
        exists (p ++ q). split; [eapply reaches_app; eauto|]. now rewrite prims_text_app, Tp, Tq.
      * apply bind_Some in H as (s2 & E2 & E3).
        destruct (writes_bind _ _ _ _ writes_diff (writes_iln (prefix ++ i)) a s s2 HR E2)
          as (p & Hp & Tp).
        destruct (IH _ _ _ _ _ (proj2 Hp) E3) as (q & Hq & Tq).
        exists (p ++ q). split; [eapply reaches_app; eauto|]. now rewrite prims_text_app, Tp, Tq.
    + apply bind_Some in H as (s2 & E2 & E3).
      destruct (writes_iln (prefix ++ i) a s s2 HR E2) as (p & Hp & Tp).
      destruct (IH _ _ _ _ _ (proj2 Hp) E3) as (q & Hq & Tq).
      exists (p ++ q). split; [eapply reaches_app; eauto|]. now rewrite prims_text_app, Tp, Tq.
Qed.

Lemma writes_tset items prefix :
  writes_text (op_tset cc items prefix) (lines_text (map (fun i => prefix ++ i) items)).
Proof.
  intros a s s' HR H. unfold op_tset in H.
  destruct (r_line (rd s)) as [l|] eqn:El.
  - destruct T as [t|] eqn:ET.
    2:{ rewrite (R_rd _ _ _ HR) in El. discriminate. }
    assert (Hfu : reader_fuel (rd s) = S (length t)) by (rewrite (R_rd _ _ _ HR); reflexivity).
    pose proof (rlines_length t) as Hlen. pose proof (R_k _ _ _ HR) as Hk. simpl in Hk.
    destruct (tset_scan_total (reader_fuel (rd s)) prefix (last_checked s) t (a_k a) (a_j a) [])
      as (cmp & k' & j' & E & Hk'); [exact Hk|lia|].
    rewrite <- (R_rd _ _ _ HR) in E.
    rewrite E in H. cbn [bind] in H.
    apply bind_Some in H as ([c' s1] & E1 & E2). cbn [fst snd] in E2.
    assert (HR1 : Rel (Some t) (astep (Some t) a (PMove k' j')) (set_rd (rpos cc (Some t) k' j') s)).
    { apply set_rd_Rel; [exact HR|exact Hk']. }
    rewrite <- ET in *.
    destruct (writes_tset_items _ _ _ _ _ _ _ HR1 E1) as (p & Hp & Tp).
    assert (Hm : reaches T a [PMove k' j'] (set_rd (rpos cc T k' j') s)).
    { split; [constructor; [|constructor]; rewrite ET; exact Hk'|]. exact HR1. }
    pose proof (reaches_app _ _ _ _ _ _ Hm Hp) as Hmp.
    destruct c' as [[rest be]|].
    + assert (Hj : exists q, reaches T (asteps T ([PMove k' j'] ++ p) a) q s' /\ prims_text q = []).
      { destruct rest as [|x rest].
        - apply (writes_jump _ _ s1 s' (proj2 Hmp) E2).
        - assert (HRd := do_diff_Rel T _ s1 (proj2 Hmp)).
          destruct (writes_jump _ _ _ s' HRd E2) as (q & Hq & Tq).
          exists ([PDiff] ++ q). split; [|exact Tq].
          eapply reaches_app; [|exact Hq]. split; [repeat constructor|exact HRd]. }
      destruct Hj as (q & Hq & Tq).
      exists (([PMove k' j'] ++ p) ++ q). split; [eapply reaches_app; eauto|].
      rewrite !prims_text_app, Tp, Tq. simpl. now rewrite app_nil_r.
    + inversion E2; subst. exists ([PMove k' j'] ++ p). split; [exact Hmp|].
      now rewrite prims_text_app, Tp.
  - apply bind_Some in H as ([c' s1] & E1 & E2). inversion E2; subst.
    apply (writes_tset_items _ _ _ _ _ _ _ HR E1).
Qed.

(** tables *)
Lemma cell_text_shown x : cell_text cc x = cell_shown cc x.
Proof.
  unfold cell_text, cell_shown. f_equal. rewrite map_map. apply map_ext. intros c.
  destruct (N.eqb_spec c CR) as [->|]; [reflexivity|]. now rewrite orb_false_r.
Qed.
Lemma col_pad_width col : col_pad col = col_width col.
Proof.
  destruct col as [n cs]. unfold col_pad, col_width. cbn [fst snd map].
  generalize (length n). intros k. change (list_max (k :: map (@length char) cs)) with (Nat.max k (list_max (map (@length char) cs))).
  revert k. induction cs as [|c cs IH]; intros k; cbn [fold_left map].
  - symmetry. apply Nat.max_0_r.
  - rewrite IH. change (list_max (length c :: map (@length char) cs)) with (Nat.max (length c) (list_max (map (@length char) cs))). lia.
Qed.
Lemma op_tdf_eq cols rows : op_tdf cc cols rows = fun s =>
  bind (bind (op_iln cc (bar ++ flat_map (fun col => ljust (col_width col) (fst col) ++ bar) cols) s)
    (op_tln cc (bar ++ flat_map (fun col => repeat MINUS (col_width col) ++ bar) cols)))
    (steps (map (fun i =>
      steps ([op_t cc bar] ++
             flat_map (fun col =>
               let buf := cell_shown cc (nth i (snd col) []) in
               [op_t cc buf; op_i cc (repeat SP (col_width col - length buf)); op_t cc bar]) cols ++
             [op_tln cc []])) (seq 0 rows))).
Proof.
  unfold op_tdf.
  rewrite (flat_map_ext (fun col => ljust (col_pad col) (fst col) ++ bar) (fun col => ljust (col_width col) (fst col) ++ bar))
    by (intros col; now rewrite col_pad_width).
  rewrite (flat_map_ext (fun col => repeat MINUS (col_pad col) ++ bar) (fun col => repeat MINUS (col_width col) ++ bar))
    by (intros col; now rewrite col_pad_width).
  erewrite (map_ext (fun i => steps ([op_t cc bar] ++ flat_map _ cols ++ [op_tln cc []]))); [reflexivity|].
  intros i. cbn beta. do 3 f_equal. apply flat_map_ext. intros col. cbn zeta. now rewrite cell_text_shown, col_pad_width.
Qed.

Lemma writes_tdf cols rows : writes_text (op_tdf cc cols rows) (table_text cc cols rows).
Proof.
  rewrite op_tdf_eq. unfold table_text.
  assert (Hrow : forall i, writes_text
    (steps ([op_t cc bar] ++
           flat_map (fun col =>
             let buf := cell_shown cc (nth i (snd col) []) in
             [op_t cc buf; op_i cc (repeat SP (col_width col - length buf)); op_t cc bar]) cols ++
           [op_tln cc []])) (table_row cc cols i)).
  { intros i. unfold table_row. eapply writes_eq; [|apply (writes_steps _
      ([bar] ++ flat_map (fun col =>
         let buf := cell_shown cc (nth i (snd col) []) in
         [buf; repeat SP (col_width col - length buf); bar]) cols ++ [[NL]]))].
    - rewrite !concat_app. simpl. f_equal. rewrite ?app_nil_r. f_equal.
      induction cols as [|col cols IH]; simpl; [reflexivity|]. rewrite IH.
      unfold ljust. rewrite <- !app_assoc. reflexivity.
    - simpl. constructor; [apply writes_feed|]. induction cols as [|col cols IH]; simpl.
      + constructor; [apply (writes_tln [])|constructor].
      + constructor; [apply writes_feed|]. constructor; [apply writes_feed|].
        constructor; [apply writes_feed|]. exact IH. }
  eapply writes_eq; [|refine (writes_bind _ _ _ _ (writes_bind _ _ _ _ (writes_iln _) (writes_tln _))
    (writes_steps _ (map (table_row cc cols) (seq 0 rows)) _))].
  - rewrite <- !app_assoc, (flat_map_concat_map (table_row cc cols)). reflexivity.
  - induction (seq 0 rows) as [|i l IH]; [constructor|].
    cbn [map]. constructor; [apply Hrow|exact IH].
Qed.

Lemma ifloat_ok v u a s s' :
  Rel T a s -> op_ifloatln cc refloat v u s = Some s' ->
  exists ps was, reaches T a ps s' /\ was_text u was /\
    prims_text ps = v ++ unit_text u ++ was ++ [NL] /\ forallb harmless ps = true.
Proof.
  intros HR H. unfold op_ifloatln in H. apply bind_Some in H as (s1 & E1 & E2).
  change (match u with Some u0 => [SP] ++ u0 | None => [] end) with (unit_text u) in *.
  destruct (feed_reaches T a s false _ s1 HR E1) as (ts & Hts & H1).
  set (old := match head_exp_token (rd s) with Some t => refloat t | None => None end) in *.
  destruct old as [o|].
  - destruct (feedln_reaches T _ s1 false _ s' (proj2 H1) E2) as (ts2 & Hts2 & H2).
    eexists (_ ++ _), (lit " (was " ++ o ++ unit_text u ++ lit ")").
    split; [eapply reaches_app; eauto|]. split; [right; now exists o|].
    rewrite prims_text_app, (ttext _ _ _ Hts), (tlnl _ _ _ Hts2), forallb_app.
    rewrite !harmless_toks. split; [|reflexivity]. now rewrite <- !app_assoc.
  - destruct (feedln_reaches T _ s1 false _ s' (proj2 H1) E2) as (ts2 & Hts2 & H2).
    eexists (_ ++ _), []. split; [eapply reaches_app; eauto|]. split; [now left|].
    rewrite prims_text_app, (ttext _ _ _ Hts), (tlnl _ _ _ Hts2), forallb_app.
    rewrite !harmless_toks. split; [|reflexivity]. now rewrite <- !app_assoc.
Qed.

Lemma assert_ok c m a s s' :
  Rel T a s -> op_assertln cc c m s = Some s' ->
  exists ps, reaches T a ps s' /\ prims_text ps = assert_text c m ++ [NL] /\
    (c = true -> forallb harmless ps = true) /\ (c = false -> fails_line ps).
Proof.
  intros HR H. unfold op_assertln in H. destruct c.
  - destruct (feedln_reaches T a s false _ s' HR H) as (ts & Hts & Hr).
    eexists; split; [exact Hr|]. split; [now apply tlnl|]. split; [|discriminate].
    intros _; apply harmless_toks.
  - pose proof (do_fail_Rel T a s HR) as HR1.
    destruct (feedln_reaches T _ _ false _ s' HR1 H) as (ts & Hts & Hr).
    exists ([PFail] ++ toks false (ts ++ [[NL]])). split; [|split; [|split; [discriminate|]]].
    + eapply reaches_app; [|exact Hr]. split; [repeat constructor|exact HR1].
    + rewrite prims_text_app, (tlnl _ _ _ Hts). reflexivity.
    + intros _. rewrite <- (app_nil_r (toks _ _)). apply fl_here.
Qed.

Lemma exec_ok o a s s' :
  Rel T a s -> exec cc refloat o s = Some s' ->
  exists ps, reaches T a ps s' /\ op_ok a o ps.
Proof.
  intros HR H.
  assert (Hgen : forall f w, writes_text f w -> f s = Some s' ->
    unchecked_op o = false -> failing_op o = false -> o <> OFail -> o <> ODiff ->
    (forall ps, prims_text ps = w -> op_writes cc (started a) o (prims_text ps)) ->
    exists ps, reaches T a ps s' /\ op_ok a o ps).
  { intros f w Hf E Hu Hfl Hof Hod Hw. destruct (Hf a s s' HR E) as (ps & Hp & Tp).
    exists ps. split; [exact Hp|]. split; [auto|]. rewrite Hu, Hfl.
    repeat split; intros; try discriminate; congruence. }
  unfold op_ok. destruct o as [x|x|x|x| | |x|x|h|lv ti|k v|items p|items p|cols rows|v u|ov msg v
    |c m|ti c m|n|ok b e]; cbn [exec] in H.
  - eapply Hgen; [apply writes_feed|exact H|..]; try reflexivity; try discriminate. auto.
  - eapply Hgen; [apply writes_feedln|exact H|..]; try reflexivity; try discriminate. auto.
  - destruct (feed_reaches T a s _ _ s' HR H) as (ts & Hts & Hr). eexists; split; [exact Hr|].
    split; [now apply ttext|]. split; [intros; apply harmless_toks|].
    repeat split; discriminate.
  - destruct (feedln_reaches T a s _ _ s' HR H) as (ts & Hts & Hr). eexists; split; [exact Hr|].
    split; [now apply tlnl|]. split; [intros; apply harmless_toks|].
    repeat split; discriminate.
  - inversion H; subst. exists [PFail]. split; [|repeat split; try discriminate].
    split; [repeat constructor|now apply do_fail_Rel].
  - inversion H; subst. exists [PDiff]. split; [|repeat split; try discriminate].
    split; [repeat constructor|now apply do_diff_Rel].
  - eapply Hgen; [apply writes_anchor|exact H|..]; try reflexivity; try discriminate. auto.
  - eapply Hgen; [apply writes_anchorln|exact H|..]; try reflexivity; try discriminate. auto.
  - destruct (header_writes h a s s' HR H) as (ps & Hp & Tp). exists ps. split; [exact Hp|].
    repeat split; try discriminate. exact Tp.
  - destruct (header_writes _ a s s' HR H) as (ps & Hp & Tp). exists ps. split; [exact Hp|].
    repeat split; try discriminate. exact Tp.
  - eapply Hgen; [apply (writes_bind _ _ _ _ (writes_anchor k) (writes_tln ([SP] ++ v)))|exact H|..];
      try reflexivity; try discriminate. intros ps ->. simpl. now rewrite <- ?app_assoc.
  - eapply Hgen; [apply writes_tlist|exact H|..]; try reflexivity; try discriminate. auto.
  - eapply Hgen; [apply writes_tset|exact H|..]; try reflexivity; try discriminate. auto.
  - eapply Hgen; [apply writes_tdf|exact H|..]; try reflexivity; try discriminate. auto.
  - destruct (ifloat_ok v u a s s' HR H) as (ps & was & Hp & Hw & Ht & Hh).
    exists ps. split; [exact Hp|]. split; [exists was; auto|]. split; [auto|].
    repeat split; discriminate.
  - unfold op_tmsln in H. destruct ov.
    + pose proof (do_fail_Rel T a s HR) as HR1.
      destruct (feedln_reaches T _ _ true _ s' HR1 H) as (ts & Hts & Hr).
      exists ([PFail] ++ toks true (ts ++ [[NL]])). split; [|split; [|split; [discriminate|]]].
      * eapply reaches_app; [|exact Hr]. split; [repeat constructor|exact HR1].
      * unfold op_writes. rewrite prims_text_app, (tlnl _ _ _ Hts). reflexivity.
      * split; [|split; discriminate]. intros _. rewrite <- (app_nil_r (toks _ _)). apply fl_here.
    + destruct (ifloat_ok v _ a s s' HR H) as (ps & was & Hp & Hw & Ht & Hh).
      exists ps. split; [exact Hp|]. split; [exists was; auto|]. split; [auto|].
      repeat split; discriminate.
  - destruct (assert_ok c m a s s' HR H) as (ps & Hp & Ht & Hh & Hf).
    exists ps. split; [exact Hp|]. split; [exact Ht|]. destruct c.
    + split; [auto|]. repeat split; discriminate.
    + split; [discriminate|]. split; [auto|]. split; discriminate.
  - unfold op_must in H. apply bind_Some in H as (s1 & E1 & E2).
    destruct (feed_reaches T a s _ _ s1 HR E1) as (ts & Hts & Hr).
    destruct (assert_ok c m _ s1 s' (proj2 Hr) E2) as (ps & Hp & Ht & Hh & Hf).
    exists (toks false ts ++ ps). split; [eapply reaches_app; eauto|]. split; [|split; [|split]].
    + unfold op_writes. rewrite prims_text_app, (ttext _ _ _ Hts), Ht. now rewrite <- !app_assoc.
    + intros Hc. rewrite forallb_app, harmless_toks. destruct c; [|discriminate]. now apply Hh.
    + intros Hc. destruct c; [discriminate|]. apply fails_line_app. now apply Hf.
    + split; discriminate.
  - destruct (op_jump_exact T a s n HR) as (s1 & E & Hr). rewrite E in H; inversion H; subst.
    eexists; split; [exact Hr|]. repeat split; try discriminate.
  - destruct (op_seek_exact T a s ok b e HR) as (k & j & s1 & E & Hr & _).
    rewrite E in H; inversion H; subst. eexists; split; [exact Hr|]. repeat split; try discriminate.
Qed.

(** whole test bodies *)
Inductive runs : ast -> list op -> list prim -> Prop :=
| runs_nil a : runs a [] []
| runs_cons a o ops ps qs :
    op_ok a o ps -> runs (asteps T ps a) ops qs -> runs a (o :: ops) (ps ++ qs).

Lemma exec_all_ok ops : forall a s s',
  Rel T a s -> exec_all cc refloat ops s = Some s' ->
  exists ps, reaches T a ps s' /\ runs a ops ps.
Proof.
  induction ops as [|o ops IH]; intros a s s' HR H.
  - inversion H; subst. exists []. split; [now apply reaches_nil|constructor].
  - unfold exec_all in H. cbn [map steps] in H. apply bind_Some in H as (s1 & E1 & E2).
    destruct (exec_ok o a s s1 HR E1) as (p & Hp & Op).
    destruct (IH _ _ _ (proj2 Hp) E2) as (q & Hq & Oq).
    exists (p ++ q). split; [eapply reaches_app; eauto|]. now constructor.
Qed.

End Ops.

(** ** The initial state *)
Definition a0 : ast :=
  {| a_k := 0; a_j := 0; a_cur := []; a_d := None; a_e := None; a_lc := false; a_recs := [] |}.

Lemma start_Rel file point : Rel (option_map univ_newlines file) a0 (start cc file point).
Proof.
  constructor; simpl; auto; try lia.
  - apply reset_rpos. reflexivity.
  - constructor; simpl; auto.
Qed.

Lemma run_body_reaches refloat file point ops s :
  run_body cc refloat file point ops = Some s ->
  exists ps, reaches (option_map univ_newlines file) a0 ps s /\
             runs (option_map univ_newlines file) a0 ops ps.
Proof. intros H. eapply exec_all_ok; [apply start_Rel|exact H]. Qed.

End Proofs.
