(** The snapshot reader of TestCaseRun is a cursor (line k, token j) into the list of lines. *)
From Verif Require Export PyStrFacts TokenizerModel TokenizerProofs CaseRunModel.

(** lines of a text as the reader delivers them (CaseRunSpec gives a readable equivalent) *)
Fixpoint rlines (s : str) : list str :=
  match s with
  | [] => []
  | c :: s' =>
      if N.eqb c NL then [] :: rlines s'
      else match s' with
           | [] => [[]]
           | _ => match rlines s' with [] => [] | l :: ls => (c :: l) :: ls end
           end
  end.

Lemma rlines_cons c s :
  rlines (c :: s) =
  if N.eqb c NL then [] :: rlines s
  else match s with
       | [] => [[]]
       | _ => match rlines s with [] => [] | l :: ls => (c :: l) :: ls end
       end.
Proof. reflexivity. Qed.

Lemma rlines_nonempty c s : rlines (c :: s) <> [].
Proof.
  revert c; induction s as [|d s IH]; intros c; rewrite rlines_cons.
  - destruct (N.eqb c NL); discriminate.
  - destruct (N.eqb c NL); [discriminate|]. specialize (IH d).
    destruct (rlines (d :: s)); [congruence|discriminate].
Qed.

Lemma readline_nonempty c s : fst (readline (c :: s)) <> [].
Proof. simpl. destruct (N.eqb c NL); [discriminate|]. destruct (readline s); discriminate. Qed.

Lemma drop_last_cons c d l : drop_last (c :: d :: l) = c :: drop_last (d :: l).
Proof. unfold drop_last. simpl. now rewrite Nat.sub_0_r. Qed.

Lemma rlines_readline c s :
  rlines (c :: s) = drop_last (fst (readline (c :: s))) :: rlines (snd (readline (c :: s))).
Proof.
  revert c; induction s as [|d s IH]; intros c.
  - simpl. destruct (N.eqb c NL); reflexivity.
  - change (rlines (c :: d :: s)) with
      (if N.eqb c NL then [] :: rlines (d :: s)
       else match rlines (d :: s) with [] => [] | l :: ls => (c :: l) :: ls end).
    rewrite IH.
    change (readline (c :: d :: s)) with
      (if N.eqb c NL then ([c], d :: s) else let (l, r) := readline (d :: s) in (c :: l, r)).
    destruct (N.eqb_spec c NL) as [->|Hc].
    + cbn [fst snd]. rewrite IH. reflexivity.
    + pose proof (readline_nonempty d s) as Hn.
      destruct (readline (d :: s)) as [l r] eqn:E. cbn [fst snd] in *.
      destruct l as [|e l]; [congruence|]. now rewrite drop_last_cons.
Qed.

Lemma rlines_length s : length (rlines s) <= length s.
Proof.
  induction s as [|c s IH]; [simpl; lia|]. simpl. destruct (N.eqb c NL); [simpl; lia|].
  destruct s as [|d s]; [simpl; lia|].
  destruct (rlines (d :: s)); simpl in *; lia.
Qed.

(** the text left after [k] lines *)
Fixpoint drop_lines (k : nat) (s : str) : str :=
  match k with O => s | S k' => drop_lines k' (snd (readline s)) end.

Lemma drop_lines_nil k : drop_lines k [] = [].
Proof. induction k; simpl; auto. Qed.

Lemma rlines_drop k s : rlines (drop_lines k s) = skipn k (rlines s).
Proof.
  revert s; induction k as [|k IH]; intros s; [reflexivity|].
  cbn [drop_lines]. rewrite IH. destruct s as [|c s].
  - simpl. destruct k; reflexivity.
  - rewrite rlines_readline. reflexivity.
Qed.

Lemma rlines_nil_iff s : rlines s = [] <-> s = [].
Proof. destruct s as [|c s]; [easy|]. split; [|discriminate]. intros H; now apply rlines_nonempty in H. Qed.

Lemma drop_lines_S k s : drop_lines (S k) s = snd (readline (drop_lines k s)).
Proof. revert s; induction k as [|k IH]; intros s; [reflexivity|]. cbn [drop_lines] in *. now rewrite IH. Qed.

Section Reader.
Variable cc : CharClass.

(** the buffered token iterator after [j] tokens *)
Definition bi_step (b : bufiter) : bufiter :=
  match bi_next cc b with Some (_, b') => b' | None => b end.
Fixpoint bi_after (j : nat) (b : bufiter) : bufiter :=
  match j with O => b | S j' => bi_step (bi_after j' b) end.

Definition tok_at (l : str) (j : nat) : str :=
  match bi_head (bi_after j (bi_init cc l)) with Some t => t | None => [NL] end.

Definition nlines (T : option str) : nat :=
  match T with None => 0 | Some t => length (rlines t) end.

Definition line_at (T : option str) (k : nat) : option str :=
  match T with None => None | Some t => nth_error (rlines t) k end.

(** expected token at line [k], position [j] *)
Definition exp_tok (T : option str) (k j : nat) : option str :=
  option_map (fun l => tok_at l j) (line_at T k).

(** the reader standing at line [k], token [j] *)
Definition rpos (T : option str) (k j : nat) : reader :=
  match T with
  | None => {| r_text := None; r_rest := None; r_line := None; r_num := 0; r_tok := None |}
  | Some t =>
      {| r_text := Some t;
         r_rest := if Nat.ltb k (length (rlines t)) then Some (drop_lines (S k) t) else None;
         r_line := nth_error (rlines t) k;
         r_num := S k;
         r_tok := option_map (fun l => bi_after j (bi_init cc l)) (nth_error (rlines t) k) |}
  end.

Lemma r_text_rpos T k j : r_text (rpos T k j) = T.
Proof. destruct T; reflexivity. Qed.
Lemma r_line_rpos T k j : r_line (rpos T k j) = line_at T k.
Proof. destruct T; reflexivity. Qed.

Lemma r_num_rpos t k j : r_num (rpos (Some t) k j) = S k.
Proof. reflexivity. Qed.

Lemma rpos_eof T k j j' : nlines T <= k -> rpos T k j = rpos T k j'.
Proof.
  destruct T as [t|]; [|reflexivity]. simpl. intros H.
  apply nth_error_None in H. rewrite H. reflexivity.
Qed.

Lemma next_exp_line_rpos lc T k j :
  k <= nlines T -> next_exp_line cc lc (rpos T k j) = rpos T (Nat.min (S k) (nlines T)) 0.
Proof.
  intros Hk. destruct T as [t|]; [|reflexivity]. simpl nlines in *.
  unfold next_exp_line. cbn [rpos r_text r_rest].
  destruct (Nat.ltb_spec k (length (rlines t))) as [Hlt|Hge].
  - cbn [r_text r_num].
    assert (Hl : rlines (drop_lines (S k) t) = skipn (S k) (rlines t)) by apply rlines_drop.
    destruct (drop_lines (S k) t) as [|c s'] eqn:Ed.
    + cbn [readline]. symmetry in Hl. change (rlines []) with (@nil str) in Hl.
      assert (Hlen : length (rlines t) = S k).
      { apply (f_equal (@length str)) in Hl. rewrite skipn_length in Hl. simpl in Hl. lia. }
      replace (Nat.min (S k) (length (rlines t))) with (S k) by lia.
      unfold rpos. rewrite (proj2 (nth_error_None (rlines t) (S k))) by lia.
      destruct (Nat.ltb_spec (S k) (length (rlines t))); [lia|]. reflexivity.
    + rewrite rlines_readline in Hl.
      pose proof (readline_nonempty c s') as Hn.
      assert (Hd : drop_lines (S (S k)) t = snd (readline (c :: s'))).
      { rewrite drop_lines_S, Ed. reflexivity. }
      assert (Hlen : S k < length (rlines t)).
      { apply (f_equal (@length str)) in Hl. rewrite skipn_length in Hl. simpl in Hl. lia. }
      assert (Hnth : nth_error (rlines t) (S k) = Some (drop_last (fst (readline (c :: s'))))).
      { rewrite <- (firstn_skipn (S k) (rlines t)), <- Hl.
        rewrite nth_error_app2; rewrite firstn_length; [|lia].
        replace (S k - Nat.min (S k) (length (rlines t))) with 0 by lia. reflexivity. }
      replace (Nat.min (S k) (length (rlines t))) with (S k) by lia.
      unfold rpos. rewrite Hnth. destruct (Nat.ltb_spec (S k) (length (rlines t))); [|lia].
      rewrite Hd. destruct (readline (c :: s')) as [[|x l] r]; [simpl in Hn; congruence|].
      reflexivity.
  - replace (Nat.min (S k) (length (rlines t))) with k by lia.
    assert (Hnone : nth_error (rlines t) k = None) by (apply nth_error_None; lia).
    unfold rpos. rewrite Hnone. destruct (Nat.ltb_spec k (length (rlines t))); [lia|].
    destruct lc; reflexivity.
Qed.

Lemma reset_rpos lc T r : r_text r = T -> reset_exp_reader cc lc r = rpos T 0 0.
Proof.
  intros <-. unfold reset_exp_reader. destruct (r_text r) as [t|]; [|reflexivity].
  unfold next_exp_line; cbn [r_text r_rest]. destruct t as [|c t].
  - reflexivity.
  - pose proof (readline_nonempty c t) as Hn. pose proof (rlines_readline c t) as Hl.
    unfold rpos. rewrite Hl. cbn [length nth_error option_map].
    destruct (Nat.ltb_spec 0 (S (length (rlines (snd (readline (c :: t))))))); [|lia].
    cbn [drop_lines].
    destruct (readline (c :: t)) as [[|x l] r0]; [simpl in Hn; congruence|]. reflexivity.
Qed.

Lemma next_exp_token_rpos T k j :
  next_exp_token cc (rpos T k j) = (exp_tok T k j, rpos T k (S j)).
Proof.
  destruct T as [t|]; [|reflexivity]. unfold next_exp_token, exp_tok, rpos.
  cbn [r_tok r_text r_rest r_line r_num line_at].
  destruct (nth_error (rlines t) k) as [l|]; [|reflexivity]. cbn [option_map bi_after].
  unfold tok_at, bi_step, bi_next.
  destruct (bi_after j (bi_init cc l)) as [[h|] r]; reflexivity.
Qed.

Lemma head_exp_token_rpos T k j : head_exp_token (rpos T k j) = exp_tok T k j.
Proof.
  destruct T as [t|]; [|reflexivity]. unfold head_exp_token, exp_tok, rpos.
  cbn [r_tok line_at]. destruct (nth_error (rlines t) k) as [l|]; [|reflexivity].
  cbn [option_map]. unfold tok_at.
  destruct (bi_after j (bi_init cc l)) as [[h|] r]; reflexivity.
Qed.

(** ** loops *)

(** where a loop started at [k] stops: first line whose condition fails, or the end *)
Fixpoint scan_from (cond : str -> nat -> bool) (ls : list str) (k : nat) : nat :=
  match ls with
  | [] => k
  | l :: ls' => if cond l (S k) then scan_from cond ls' (S k) else k
  end.

Lemma scan_from_bounds cond ls k :
  k <= scan_from cond ls k <= k + length ls.
Proof.
  revert k; induction ls as [|l ls IH]; intros k; simpl; [lia|].
  destruct (cond l (S k)); [|lia]. specialize (IH (S k)). lia.
Qed.

Lemma nth_error_skipn_cons {A} (l : list A) k :
  forall x, nth_error l k = Some x -> skipn k l = x :: skipn (S k) l.
Proof.
  revert l; induction k as [|k IH]; intros [|y l] x H; try discriminate.
  - now inversion H.
  - simpl in *. now rewrite (IH l x H).
Qed.

Lemma next_while_rpos cond lc t fuel k j :
  k <= length (rlines t) -> length (rlines t) - k <= fuel ->
  next_while cc fuel cond lc (rpos (Some t) k j) =
  let k' := scan_from cond (skipn k (rlines t)) k in
  Some (rpos (Some t) k' (if Nat.eqb k' k then j else 0)).
Proof.
  revert k j; induction fuel as [|fuel IH]; intros k j Hk Hf.
  - assert (k = length (rlines t)) by lia. subst k. rewrite skipn_all.
    cbn [next_while scan_from]. rewrite r_line_rpos. simpl line_at.
    rewrite (proj2 (nth_error_None _ _)) by lia. rewrite Nat.eqb_refl. reflexivity.
  - cbn [next_while]. rewrite r_line_rpos. simpl line_at.
    destruct (nth_error (rlines t) k) as [l|] eqn:El.
    + rewrite (nth_error_skipn_cons _ _ _ El). cbn [scan_from]. rewrite r_num_rpos.
      destruct (cond l (S k)) eqn:Ec.
      * assert (k < length (rlines t)) by (apply nth_error_Some; congruence).
        rewrite next_exp_line_rpos by (simpl; lia). simpl nlines.
        replace (Nat.min (S k) (length (rlines t))) with (S k) by lia.
        rewrite IH by lia. cbn zeta.
        pose proof (scan_from_bounds cond (skipn (S k) (rlines t)) (S k)) as Hb.
        destruct (Nat.eqb_spec (scan_from cond (skipn (S k) (rlines t)) (S k)) k); [lia|].
        destruct (Nat.eqb (scan_from cond (skipn (S k) (rlines t)) (S k)) (S k)); reflexivity.
      * cbn zeta. rewrite Nat.eqb_refl. reflexivity.
    + apply nth_error_None in El. rewrite skipn_all2 by exact El. cbn [scan_from].
      rewrite Nat.eqb_refl. reflexivity.
Qed.

Lemma scan_from_jump n ls k :
  scan_from (fun _ m => Nat.ltb m n) ls k = Nat.min (Nat.max k (n - 1)) (k + length ls).
Proof.
  revert k; induction ls as [|l ls IH]; intros k; cbn [scan_from length]; [lia|].
  destruct (Nat.ltb_spec (S k) n); [rewrite IH; lia|lia].
Qed.

(** jump goes to line [n] (counted from 1), or the end *)
Lemma jump_rpos lc n t k j :
  k <= length (rlines t) ->
  jump cc lc n (rpos (Some t) k j) =
  Some (rpos (Some t) (Nat.min (n - 1) (length (rlines t))) (if Nat.eqb n (S k) then j else 0)).
Proof.
  intros Hk. unfold jump. rewrite r_text_rpos, r_num_rpos.
  assert (Hfuel : reader_fuel (rpos (Some t) k j) = S (length t)) by reflexivity.
  rewrite Hfuel. pose proof (rlines_length t) as Hlen.
  destruct (Nat.ltb_spec n (S k)) as [Hlt|Hge].
  - rewrite (reset_rpos lc (Some t)) by apply r_text_rpos.
    rewrite next_while_rpos by lia. cbn zeta. rewrite scan_from_jump.
    rewrite skipn_length. replace (Nat.min (Nat.max 0 (n - 1)) (0 + (length (rlines t) - 0)))
      with (Nat.min (n - 1) (length (rlines t))) by lia.
    destruct (Nat.eqb_spec n (S k)); [lia|].
    destruct (Nat.eqb (Nat.min (n - 1) (length (rlines t))) 0); reflexivity.
  - rewrite next_while_rpos by lia. cbn zeta. rewrite scan_from_jump. rewrite skipn_length.
    replace (Nat.min (Nat.max k (n - 1)) (k + (length (rlines t) - k)))
      with (Nat.min (n - 1) (length (rlines t))) by lia.
    destruct (Nat.eqb_spec n (S k)) as [->|Hn].
    + replace (Nat.min (S k - 1) (length (rlines t))) with k by lia.
      now rewrite Nat.eqb_refl.
    + destruct (Nat.eqb_spec (Nat.min (n - 1) (length (rlines t))) k) as [Hek|Hek]; [|reflexivity].
      (* moved past the end while already there *)
      f_equal. apply rpos_eof. simpl. lia.
Qed.

Lemma jump_rpos_None lc n k j : jump cc lc n (rpos None k j) = Some (rpos None k j).
Proof. reflexivity. Qed.

(** first match, as an index *)
Fixpoint find_from (ok : str -> bool) (ls : list str) (k : nat) : option nat :=
  match ls with
  | [] => None
  | l :: ls' => if ok l then Some k else find_from ok ls' (S k)
  end.

Lemma scan_from_find ok ls k :
  scan_from (fun l n => negb (ok l) && before_end n None) ls k =
  match find_from ok ls k with Some k' => k' | None => k + length ls end.
Proof.
  revert k; induction ls as [|l ls IH]; intros k; cbn [scan_from find_from length]; [lia|].
  destruct (ok l); cbn [negb andb before_end]; [reflexivity|]. rewrite IH.
  destruct (find_from ok ls (S k)); lia.
Qed.

Lemma find_from_bounds ok ls k k' : find_from ok ls k = Some k' -> k <= k' < k + length ls.
Proof.
  revert k; induction ls as [|l ls IH]; intros k; simpl; [discriminate|].
  destruct (ok l); intros H; [inversion H; lia|]. apply IH in H. lia.
Qed.

Lemma find_from_app ok a b k :
  find_from ok (a ++ b) k =
  match find_from ok a k with Some x => Some x | None => find_from ok b (k + length a) end.
Proof.
  revert k; induction a as [|l a IH]; intros k; simpl.
  - now rewrite Nat.add_0_r.
  - destruct (ok l); [reflexivity|]. rewrite IH. replace (k + S (length a)) with (S k + length a) by lia.
    reflexivity.
Qed.

Lemma scan_from_before ok ls k m :
  k <= m -> m <= k + length ls ->
  scan_from (fun l n => negb (ok l) && Nat.ltb n (S m)) ls k =
  match find_from ok (firstn (m - k) ls) k with Some k' => k' | None => m end.
Proof.
  revert k; induction ls as [|l ls IH]; intros k Hk Hm; cbn [scan_from].
  - simpl in Hm. rewrite firstn_nil. simpl. lia.
  - simpl in Hm. destruct (Nat.eq_dec k m) as [->|Hne].
    + rewrite Nat.sub_diag. simpl firstn. cbn [find_from].
      destruct (Nat.ltb_spec (S m) (S m)); [lia|]. now rewrite andb_false_r.
    + replace (m - k) with (S (m - S k)) by lia. cbn [firstn find_from].
      destruct (Nat.ltb_spec (S k) (S m)); [|lia]. rewrite andb_true_r.
      destruct (ok l); cbn [negb]; [reflexivity|]. apply IH; lia.
Qed.

(** where an unbounded seek ends *)
Definition seek_pos (ok : str -> bool) (ls : list str) (k : nat) : nat :=
  match find_from ok (skipn k ls) k with
  | Some k' => k'
  | None => match find_from ok (firstn k ls) 0 with Some k' => k' | None => k end
  end.

Lemma seek_pos_le ok ls k : k <= length ls -> seek_pos ok ls k <= length ls.
Proof.
  intros H. unfold seek_pos. destruct (find_from ok (skipn k ls) k) eqn:E.
  - apply find_from_bounds in E. rewrite skipn_length in E. lia.
  - destruct (find_from ok (firstn k ls) 0) eqn:E2; [|exact H].
    apply find_from_bounds in E2. rewrite firstn_length in E2. lia.
Qed.

Lemma seek_rpos lc ok t k j :
  k <= length (rlines t) ->
  exists j', seek cc lc ok 0 None (rpos (Some t) k j) =
             Some (rpos (Some t) (seek_pos ok (rlines t) k) j') /\
             j' = match find_from ok (skipn k (rlines t)) k with
                  | Some k' => if Nat.eqb k' k then j else 0
                  | None => 0
                  end.
Proof.
  intros Hk. pose proof (rlines_length t) as Hlen. unfold seek. rewrite r_text_rpos.
  assert (Hfuel : reader_fuel (rpos (Some t) k j) = S (length t)) by reflexivity.
  rewrite Hfuel. rewrite next_while_rpos by lia. cbn zeta. rewrite scan_from_find, skipn_length.
  unfold seek_pos. destruct (find_from ok (skipn k (rlines t)) k) as [k'|] eqn:Ef.
  - rewrite r_line_rpos. simpl line_at. apply find_from_bounds in Ef. rewrite skipn_length in Ef.
    destruct (nth_error (rlines t) k') as [l|] eqn:El.
    + eexists; split; [reflexivity|reflexivity].
    + apply nth_error_None in El. lia.
  - rewrite r_line_rpos. simpl line_at.
    replace (k + (length (rlines t) - k)) with (length (rlines t)) by lia.
    rewrite (proj2 (nth_error_None _ _)) by lia.
    rewrite jump_rpos by lia. rewrite Nat.min_0_l.
    change (Nat.eqb 0 (S _)) with false. cbv iota.
    rewrite next_while_rpos by lia. cbn zeta. rewrite r_num_rpos.
    rewrite scan_from_before by (rewrite ?skipn_length; lia). rewrite Nat.sub_0_r. simpl skipn.
    eexists; split; [|reflexivity].
    destruct (find_from ok (firstn k (rlines t)) 0) as [k'|] eqn:E2.
    + destruct (Nat.eqb k' 0); reflexivity.
    + destruct (Nat.eqb k 0); reflexivity.
Qed.

(** any seek or jump ends at some line of the file *)
Lemma seek_total lc ok b e T k j :
  k <= nlines T ->
  exists k' j', k' <= nlines T /\ seek cc lc ok b e (rpos T k j) = Some (rpos T k' j').
Proof.
  intros Hk. destruct T as [t|]; [|exists k, j; split; [exact Hk|reflexivity]].
  simpl nlines in *. pose proof (rlines_length t) as Hlen. unfold seek. rewrite r_text_rpos.
  assert (Hfuel : reader_fuel (rpos (Some t) k j) = S (length t)) by reflexivity.
  rewrite Hfuel. rewrite next_while_rpos by lia. cbn zeta. cbv iota.
  set (k1 := scan_from _ _ _).
  assert (Hk1 : k1 <= length (rlines t)).
  { pose proof (scan_from_bounds (fun l n => negb (ok l) && before_end n e)
      (skipn k (rlines t)) k) as Hb. rewrite skipn_length in Hb. fold k1 in Hb. lia. }
  rewrite r_line_rpos. destruct (line_at (Some t) k1).
  - eexists _, _; split; [exact Hk1|reflexivity].
  - rewrite jump_rpos by exact Hk1. rewrite next_while_rpos by lia. cbn zeta. cbv iota.
    set (k2 := Nat.min _ _).
    pose proof (scan_from_bounds (fun l n => negb (ok l) && Nat.ltb n (r_num (rpos (Some t) k j)))
      (skipn k2 (rlines t)) k2) as Hb. rewrite skipn_length in Hb.
    eexists _, _; split; [|reflexivity]. lia.
Qed.

Lemma jump_total lc n T k j :
  k <= nlines T ->
  exists k' j', k' <= nlines T /\ jump cc lc n (rpos T k j) = Some (rpos T k' j').
Proof.
  intros Hk. destruct T as [t|]; [|exists k, j; split; [exact Hk|reflexivity]].
  rewrite jump_rpos by exact Hk. eexists _, _; split; [|reflexivity]. simpl; lia.
Qed.

End Reader.
