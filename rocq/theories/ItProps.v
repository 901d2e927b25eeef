(** C112: chains of assertions on an object count their failures, and write what they check. *)
From Coq Require Import FinFun.
From Verif Require Import CaseRunProofs CaseRunProps TokenizerProps ItModel.


Section It.
Variable V : Type.
Variables eq contains : V -> V -> bool.
Variable type_of : V -> V.
Variable show : V -> str.

(** the object an assertion is about: the given one, with the members selected before it *)
Definition about (it : V) (before : list (act V)) : V :=
  fold_left (fun x a => match a with AMember _ select => select x | _ => x end) before it.
Definition holds (it : V) (a : act V) : bool :=
  match a with
  | AContain m => contains it m
  | AEqual v => eq it v
  | ABeA ty => eq (type_of it) ty
  | AApply _ cond => cond it
  | AMember _ _ => true
  end.

(** [wrong it acts n]: exactly [n] of the assertions do not hold of the object they are about *)
Definition wrong (it : V) (acts : list (act V)) (n : nat) : Prop :=
  exists bad : list nat, NoDup bad /\ length bad = n /\
    forall i, In i bad <-> exists before a after, acts = before ++ a :: after /\ length before = i /\ holds (about it before) a = false.
End It.
Arguments about {V}. Arguments holds {V}. Arguments wrong {V}.

Section Proofs.
Variable cc : CharClass.
Hypothesis TOK : TokClassOK cc.

Definition calm (s : state) : Prop := line_error s = None.

Lemma commit_errors s : line_error (commit_line cc s) = None /\
  errors (commit_line cc s) = errors s + match line_error s with Some _ => 1 | None => 0 end.
Proof.
  unfold commit_line. destruct (line_error s) as [p|] eqn:E, (line_diff s) as [q|], (point_pos s);
    cbn [line_error errors set_line_diff set_line_error write_line report add_counts]; (split; [try reflexivity; exact E|lia]).
Qed.

Lemma token_errors check s t : line_error (feed_token cc check s t) = (if str_eqb t [NL] then None else line_error s) /\
  errors (feed_token cc check s t) = errors s + (if str_eqb t [NL] then match line_error s with Some _ => 1 | None => 0 end else 0).
Proof.
  unfold feed_token. destruct (next_exp_token cc (rd s)) as [e r].
  set (s2 := if _ && _ && _ then _ else _).
  assert (E2 : line_error s2 = line_error s /\ errors s2 = errors s).
  { unfold s2. destruct (_ && check); [|now split]. unfold do_diff. destruct (line_diff _); now split. }
  destruct E2 as [El Ee]. destruct (str_eqb t [NL]).
  - destruct (commit_errors s2) as [A B]. rewrite El, Ee in B. now split.
  - cbn [line_error errors set_out_line]. split; [exact El|]. rewrite Ee. lia.
Qed.

Lemma feed_calm check x s s' : feed cc check x s = Some s' -> calm s -> calm s' /\ errors s' = errors s.
Proof.
  unfold feed. destruct (tokenize cc x) as [ts|]; [|discriminate]. intros [= <-]. revert s.
  induction ts as [|t ts IH]; intros s H; cbn [fold_left]; [now split|].
  destruct (token_errors check s t) as [A B]. rewrite H in *.
  assert (C : calm (feed_token cc check s t)) by (unfold calm; rewrite A; now destruct (str_eqb t [NL])).
  destruct (IH _ C) as [D E]. split; [exact D|]. rewrite E, B. destruct (str_eqb t [NL]); lia.
Qed.

(** a text with a line end counts one failure if one is pending *)
Lemma feed_failed check x s s' : feed cc check x s = Some s' -> line_error s <> None -> In NL x -> calm s' /\ errors s' = S (errors s).
Proof.
  unfold feed. destruct (tokenize cc x) as [ts|] eqn:ET; [|discriminate]. intros [= <-] H HI.
  rewrite <- (tokenize_concat cc TOK _ _ ET) in HI. pose proof (tokenize_good cc TOK _ _ ET) as G. clear ET. revert s H.
  induction ts as [|t ts IH]; intros s H; cbn [fold_left concat] in *; [easy|]. inversion_clear G.
  destruct (token_errors check s t) as [A B]. destruct (str_eqb_spec t [NL]) as [->|N].
  - assert (C : calm (feed_token cc check s [NL])) by exact A.
    assert (K : forall s, calm s -> calm (fold_left (feed_token cc check) ts s) /\ errors (fold_left (feed_token cc check) ts s) = errors s).
    { clear. induction ts as [|t ts IH]; intros s H; cbn [fold_left]; [now split|].
      destruct (token_errors check s t) as [A B]. rewrite H in *.
      assert (C : calm (feed_token cc check s t)) by (unfold calm; rewrite A; now destruct (str_eqb t [NL])).
      destruct (IH _ C) as [D E]. split; [exact D|]. rewrite E, B. destruct (str_eqb t [NL]); lia. }
    destruct (K _ C) as [D E]. split; [exact D|]. rewrite E, B. destruct (line_error s); [lia|congruence].
  - apply in_app_or in HI as [HI|HI]; [exfalso; auto|].
    destruct (IH HI H1 (feed_token cc check s t)) as [D E]; [now rewrite A|]. split; [exact D|]. rewrite E, B. lia.
Qed.

Lemma bind_some {A B} (x : option A) (f : A -> option B) b : bind x f = Some b -> exists a, x = Some a /\ f a = Some b.
Proof. destruct x as [a|]; [|discriminate]. intros H. now exists a. Qed.

Lemma reader_calm f s s' : with_reader f s = Some s' -> calm s -> calm s' /\ errors s' = errors s.
Proof. unfold with_reader. destruct (f (last_checked s) (rd s)); [|discriminate]. intros [= <-] H. now split. Qed.

Lemma tln_calm x s s' : op_tln cc x s = Some s' -> calm s -> calm s' /\ errors s' = errors s.
Proof.
  intros H C. apply bind_some in H as (s1 & A & B). destruct (feed_calm _ _ _ _ A C) as [C1 E1].
  destruct (feed_calm _ _ _ _ B C1) as [C2 E2]. split; [exact C2|congruence].
Qed.

Lemma header_calm h s s' : op_header cc h s = Some s' -> calm s -> calm s' /\ errors s' = errors s.
Proof.
  unfold op_header. intros H C. set (s1 := if Nat.ltb 0 (line_number s) then _ else _) in H.
  assert (C1 : calm s1 /\ errors s1 = errors s).
  { unfold s1. destruct (Nat.ltb 0 (line_number s)); [|now split].
    destruct (token_errors (last_checked s && match r_line (rd s) with Some _ => true | None => false end) s [NL]) as [A B].
    rewrite C in B. split; [exact A|]. rewrite B. destruct (str_eqb [NL] [NL]); lia. }
  clearbody s1. destruct C1 as [C1 E1]. apply bind_some in H as (s2 & A & B). unfold op_anchorln in A. apply bind_some in A as (s3 & A & A').
  destruct (reader_calm _ _ _ A C1) as [C3 E3]. destruct (tln_calm _ _ _ A' C3) as [C2 E2]. destruct (tln_calm _ _ _ B C2) as [C4 E4].
  split; [exact C4|congruence].
Qed.

Lemma must_calm title c m s s' : op_must cc title c m s = Some s' -> calm s -> calm s' /\ errors s' = errors s + (if c then 0 else 1).
Proof.
  intros H C. apply bind_some in H as (s1 & A & B). destruct (feed_calm _ _ _ _ A C) as [C1 E1]. unfold op_assertln in B. destruct c.
  - apply bind_some in B as (s2 & B & B'). destruct (feed_calm _ _ _ _ B C1) as [C2 E2]. destruct (feed_calm _ _ _ _ B' C2) as [C3 E3].
    split; [exact C3|]. rewrite Nat.add_0_r. congruence.
  - apply bind_some in B as (s2 & B & B').
    assert (F : line_error (do_fail s1) <> None /\ errors (do_fail s1) = errors s1).
    { unfold do_fail. rewrite C1. split; [discriminate|reflexivity]. }
    destruct F as [F EF]. revert B. generalize (match m with Some (c :: m0) => c :: m0 | _ => lit "FAILED" end). intros msg B.
    destruct (in_dec N.eq_dec NL msg) as [HI|HI].
    + destruct (feed_failed _ _ _ _ B F HI) as [C2 E2]. destruct (feed_calm _ _ _ _ B' C2) as [C3 E3]. split; [exact C3|]. lia.
    + assert (K : line_error s2 <> None /\ errors s2 = errors (do_fail s1)).
      { revert B. unfold feed. destruct (tokenize cc msg) as [ts|] eqn:ET; [|discriminate]. intros [= <-].
        rewrite <- (tokenize_concat cc TOK _ _ ET) in HI. clear ET EF B'. revert F HI. generalize (do_fail s1).
        induction ts as [|t ts IH]; intros s0 F HI; cbn [fold_left concat] in *; [now split|].
        destruct (token_errors false s0 t) as [P Q].
        destruct (str_eqb_spec t [NL]) as [->|N]; [exfalso; apply HI; now left|].
        destruct (IH (feed_token cc false s0 t)) as [X Y]; [now rewrite P|intros G; apply HI; apply in_or_app; now right|].
        split; [exact X|]. rewrite Y, Q. lia. }
      destruct K as [K EK]. destruct (feed_failed _ _ _ _ B' K (or_introl eq_refl)) as [C3 E3]. split; [exact C3|]. lia.
Qed.

Context {V : Type} (eq contains : V -> V -> bool) (type_of : V -> V) (show : V -> str).
Variable refloat : str -> option str.

Fixpoint count (it : V) (acts : list (act V)) : nat :=
  match acts with
  | [] => 0
  | a :: rest => (if holds eq contains type_of it a then 0 else 1) + count (about it [a]) rest
  end.

Lemma count_wrong it acts : wrong eq contains type_of it acts (count it acts).
Proof.
  revert it. induction acts as [|a acts IH]; intros it.
  - exists []. split; [constructor|]. split; [reflexivity|]. intros i. split; [easy|]. intros (b & x & c & E & _). now destruct b.
  - destruct (IH (about it [a])) as (bad & ND & L & H). cbn [count].
    set (here := if holds eq contains type_of it a then [] else [0]).
    exists (here ++ map S bad). split; [|split].
    + assert (N2 : NoDup (map S bad)) by (apply Injective_map_NoDup; [intros x y [=]; assumption|exact ND]).
      unfold here. destruct (holds _ _ _ it a); cbn [app]; [exact N2|]. constructor; [|exact N2].
      rewrite in_map_iff. intros (x & E & _). discriminate.
    + rewrite app_length, map_length, L. unfold here. now destruct (holds _ _ _ it a).
    + intros i. rewrite in_app_iff. split.
      * intros [I|I].
        -- unfold here in I. destruct (holds _ _ _ it a) eqn:E; [easy|]. destruct I as [<-|[]]. exists [], a, acts. now repeat split.
        -- apply in_map_iff in I as (j & <- & I). apply H in I as (b & x & c & -> & Lb & Hx).
           exists (a :: b), x, c. split; [reflexivity|]. split; [cbn; now rewrite Lb|]. exact Hx.
      * intros (b & x & c & E & Lb & Hx). destruct b as [|y b].
        -- injection E as <- <-. left. cbn in Lb. subst i. unfold here. cbn [about fold_left] in Hx. rewrite Hx. now left.
        -- injection E as <- ->. right. apply in_map_iff. exists (length b). split; [exact Lb|]. apply H. exists b, x, c.
           split; [reflexivity|]. split; [reflexivity|]. exact Hx.
Qed.

Lemma chain_errors acts : forall title it s s',
  exec_all cc refloat (chain_ops V eq contains type_of show title it acts) s = Some s' -> calm s ->
  calm s' /\ errors s' = errors s + count it acts.
Proof.
  induction acts as [|a acts IH]; intros title it s s'; unfold exec_all; cbn [chain_ops map steps].
  - intros [= <-] C. split; [exact C|]. cbn. lia.
  - intros H C. cbn [count].
    assert (G : forall o title', exec_all cc refloat (o :: chain_ops V eq contains type_of show title' (about it [a]) acts) s = Some s' ->
              (forall s1, exec cc refloat o s = Some s1 -> calm s1 /\ errors s1 = errors s + (if holds eq contains type_of it a then 0 else 1)) ->
              calm s' /\ errors s' = errors s + ((if holds eq contains type_of it a then 0 else 1) + count (about it [a]) acts)).
    { intros o title' E K. unfold exec_all in E. cbn [map steps] in E. apply bind_some in E as (s1 & A & B).
      destruct (K s1 A) as [C1 E1]. destruct (IH title' _ _ _ B C1) as [C2 E2]. split; [exact C2|]. lia. }
    destruct a as [m|v|ty|t c|t sel]; cbn [map steps] in H; refine (G _ _ H _); intros s1 A; cbn [claim_op exec] in A;
      try (now apply must_calm with (1 := A)).
    cbn [holds]. destruct (header_calm _ _ _ A C) as [C1 E1]. split; [exact C1|lia].
Qed.
End Proofs.

(** ** C112 *)

(** The errors that a chain adds are the assertions that do not hold of the object they are about, whatever the snapshot and
    whatever the test did before (as long as no fail() is pending in an unfinished line); so a test that makes no other failing
    call fails iff one of them does not hold. *)
Theorem C112_chain_counts : forall cc V (eq contains : V -> V -> bool) type_of show refloat title it acts s s',
  TokClassOK cc -> line_error s = None ->
  exec_all cc refloat (it_ops V eq contains type_of show title it acts) s = Some s' ->
  line_error s' = None /\ exists n, wrong eq contains type_of it acts n /\ errors s' = errors s + n.
Proof.
  intros cc V eq contains type_of show refloat title it acts s s' TOK C H. unfold it_ops, exec_all in H. cbn [map steps] in H.
  apply bind_some in H as (s1 & A & B). destruct (header_calm cc _ _ _ A C) as [C1 E1].
  destruct (chain_errors cc TOK eq contains type_of show refloat acts title it s1 s' B C1) as [C2 E2].
  split; [exact C2|]. exists (count eq contains type_of it acts). split; [apply count_wrong|]. congruence.
Qed.
Print Assumptions C112_chain_counts.

Theorem C112_chain_verdict : forall cc V (eq contains : V -> V -> bool) type_of show refloat file point title it acts s ex,
  TokClassOK cc ->
  run_body cc refloat file point (it_ops V eq contains type_of show title it acts) = Some s ->
  (verdict ex s = FAIL <->
   exists before a after, acts = before ++ a :: after /\ holds eq contains type_of (about it before) a = false).
Proof.
  intros cc V eq contains type_of show refloat file point title it acts s ex TOK H.
  destruct (C112_chain_counts cc V eq contains type_of show refloat title it acts (start cc file point) s TOK eq_refl H) as (_ & n & (bad & ND & L & W) & E).
  cbn [errors start] in E. unfold verdict. rewrite E. cbn [Nat.add].
  destruct bad as [|i bad]; cbn [length] in L; subst n; cbn [Nat.eqb negb].
  - split.
    + intros F. destruct (negb _ || negb ex); discriminate.
    + intros (b & a & c & E1 & E2). assert (I : In (length b) []) by (apply W; exists b, a, c; auto). easy.
  - split; [|reflexivity]. intros _. destruct (proj1 (W i) (or_introl eq_refl)) as (b & a & c & E1 & _ & E2). now exists b, a, c.
Qed.
Print Assumptions C112_chain_verdict.

(** the text of one assertion about [it] *)
Definition line_of {V} (eq contains : V -> V -> bool) (type_of : V -> V) (show : V -> str) (it : V) (a : act V) : str :=
  let word := match a with
              | AContain m => lit "have " ++ show m
              | AEqual v => lit "equal " ++ show v
              | ABeA ty => lit "be a " ++ show ty
              | AApply title _ => title
              | AMember _ _ => []
              end in
  let otherwise := match a with ABeA _ => lit "was " ++ show (type_of it) | _ => lit "FAILED" end in
  lit " * MUST " ++ word ++ lit "..." ++ (if holds eq contains type_of it a then lit "ok" else otherwise).
(** the lines of a chain: a blank line and a heading with the path of the member for each member, a line for each assertion *)
Fixpoint says {V} (eq contains : V -> V -> bool) (type_of : V -> V) (show : V -> str) (path : str) (it : V) (acts : list (act V)) : list str :=
  match acts with
  | [] => []
  | AMember t select :: rest =>
      [[]; lit "## " ++ path ++ lit "." ++ t ++ lit ".."; []] ++
      says eq contains type_of show (path ++ lit "." ++ t) (select it) rest
  | a :: rest => line_of eq contains type_of show it a :: says eq contains type_of show path it rest
  end.

Lemma has_nl_snoc x : has_nl (x ++ [NL]) = true.
Proof. unfold has_nl. rewrite existsb_app. cbn [existsb]. rewrite N.eqb_refl. now rewrite orb_true_r. Qed.

Lemma chain_written {V} cc (eq contains : V -> V -> bool) type_of show acts : forall title it a b,
  written cc (a ++ [NL]) (chain_ops V eq contains type_of show title it acts) b ->
  b = a ++ [NL] ++ lines_text (says eq contains type_of show title it acts).
Proof.
  assert (LC : forall l r, lines_text (l :: r) = l ++ [NL] ++ lines_text r).
  { intros l r. unfold lines_text. cbn [flat_map]. now rewrite <- app_assoc. }
  induction acts as [|x acts IH]; intros title it a b H.
  - inversion_clear H. cbn [says lines_text flat_map]. reflexivity.
  - assert (G : forall o w title' it' rest, written cc (a ++ [NL]) (o :: chain_ops V eq contains type_of show title' it' acts) b ->
        (forall w', op_writes cc true o w' -> w' = w ++ [NL]) ->
        rest = says eq contains type_of show title' it' acts ->
        b = a ++ [NL] ++ w ++ [NL] ++ lines_text rest).
    { intros o w title' it' rest W K ->. inversion_clear W as [|? ? ? w' ? O W']. rewrite has_nl_snoc in O. apply K in O. subst w'.
      rewrite app_assoc in W'. apply IH in W'. rewrite W'. now rewrite <- !app_assoc. }
    destruct x as [m|v|ty|t c|t sel]; cbn [chain_ops says] in *.
    1-4: rewrite LC; refine (G _ _ _ _ _ H _ eq_refl); intros w' O; cbn [claim_op op_writes] in O; subst w'; unfold line_of, assert_text;
      cbn [holds]; rewrite <- !app_assoc; reflexivity.
    cbn [app]. rewrite !LC. cbn [app].
    erewrite (G _ ([NL] ++ (lit "## " ++ title ++ lit "." ++ t ++ lit "..") ++ [NL]) _ _ _ H); [|clear|reflexivity].
    + rewrite <- !app_assoc. reflexivity.
    + intros w' O. cbn [op_writes] in O. subst w'. unfold header_text. rewrite <- !app_assoc. reflexivity.
Qed.

(** The output of a test that is one chain is a heading and these lines, in order, whatever the snapshot. *)
Theorem C112_chain_text : forall cc V (eq contains : V -> V -> bool) type_of show refloat file point title it acts s,
  TokClassOK cc ->
  run_body cc refloat file point (it_ops V eq contains type_of show title it acts) = Some s ->
  out s = lines_text ([lit "## " ++ title ++ lit ".."; []] ++ says eq contains type_of show title it acts) /\ out_line s = [].
Proof.
  intros cc V eq contains type_of show refloat file point title it acts s TOK H.
  destruct (C05_output_is_what_was_written cc TOK _ _ _ _ _ H) as (W & NN & _).
  unfold it_ops in W. inversion_clear W as [|? ? ? w ? O W']. cbn [op_writes has_nl existsb] in O. unfold header_text in O. cbn [app] in O.
  set (L := lines_text _).
  assert (E : out s ++ out_line s = L).
  { subst w. cbn [app] in W'.
    assert (E : forall x : str, x ++ [NL; NL] = (x ++ [NL]) ++ [NL]) by (intros x; now rewrite <- app_assoc).
    change (repeat HASH 2) with [HASH; HASH] in W'. cbn [app] in W'.
    change (HASH :: HASH :: SP :: (title ++ lit "..") ++ [NL; NL]) with ((HASH :: HASH :: SP :: title ++ lit "..") ++ [NL; NL]) in W'.
    rewrite E in W'. apply chain_written in W'. rewrite W'. unfold L, lines_text. cbn [app flat_map].
    change (lit "## ") with [HASH; HASH; SP]. cbn [app]. rewrite <- !app_assoc. reflexivity. }
  assert (Z : exists y, L = y ++ [NL]).
  { unfold L. generalize (says eq contains type_of show title it acts). intros more.
    set (ls := [lit "## " ++ title ++ lit ".."; []] ++ more). assert (NE : ls <> []) by (unfold ls; discriminate). clearbody ls. destruct (exists_last NE) as (y & z & ->). rewrite lines_text_snoc.
    eexists. now rewrite app_assoc. }
  assert (OE : out_line s = []).
  { destruct Z as [y Z]. rewrite Z in E. destruct (out_line s) as [|c r] eqn:EO; [reflexivity|]. exfalso.
    destruct (exists_last (l := c :: r)) as (q & z & Q); [discriminate|]. rewrite Q in *. rewrite app_assoc in E.
    apply app_inj_tail in E as [_ ->]. apply NN. apply in_or_app. right. now left. }
  split; [|exact OE]. rewrite OE, app_nil_r in E. exact E.
Qed.
Print Assumptions C112_chain_text.

(** two assertions of four do not hold: one of the object, one of its member *)
Definition nat_show (n : nat) : str := repeat 49%N n.
Example C112_example : exists s,
  run_body ascii_class (fun _ => None) None false
    (it_ops nat Nat.eqb Nat.leb (fun _ => 3) nat_show (lit "x") 2
       [AEqual 2; ABeA 4; AMember (lit "pred") pred; AEqual 1; AApply (lit "be big") (Nat.leb 5)]) = Some s /\
  errors s = 2 /\ verdict true s = FAIL /\
  out s = lines_text [lit "## x.."; []; lit " * MUST equal 11...ok"; lit " * MUST be a 1111...was 111"; [];
                      lit "## x.pred.."; []; lit " * MUST equal 1...ok"; lit " * MUST be big...FAILED"].
Proof. eexists. split; [vm_compute; reflexivity|]. repeat split. Qed.
