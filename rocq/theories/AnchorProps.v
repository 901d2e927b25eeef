(** C73: which line of the snapshot a call is compared with, and what it counts (booktest/testcaserun.py:561-597, 700-762).
    C74: the old value in ifloatln (booktest/testcaserun.py:599-616). *)
From Verif Require Import PyStrFacts TokenizerProps TokenizerSpec TokenizerProofs CaseRunModel CaseRunSpec ReaderProofs CaseRunProofs CaseRunFacts CaseRunLines CaseRunProps SectionProofs TsetProofs
  CheckedModel CheckedProofs CheckedProps AnchorProofs.
From Coq Require Import Lia.

(** A test has made the calls [ops] and is at the start of a line, with no mark on it. *)
Definition at_line_start cc refloat f point ops s : Prop :=
  run_body cc refloat (Some f) point ops = Some s /\ placed true false ops = true /\ fold_left start_after ops true = true /\
  line_diff s = None /\ line_error s = None.

Lemma run_fresh cc (TOK : TokClassOK cc) refloat f point ops s : at_line_start cc refloat f point ops s ->
  exists a, Rel cc (Some (univ_newlines f)) a s /\ fresh a /\ a_k a = cursor s.
Proof.
  intros (H & HP & HS & D & E). destruct (run_body_feeds cc TOK refloat f point ops s HP H) as (a & tl & HR & HI & HF). exists a. split; [exact HR|].
  pose proof (ops_feed_start cc TOK ops [] tl true HF (fun _ => eq_refl) HS) as O. split.
  - split; [rewrite (I_j _ _ _ _ HI), O; reflexivity|]. split; [rewrite (I_cur _ _ _ _ HI), O; reflexivity|]. split; [now rewrite <- (R_d _ _ _ _ HR)|now rewrite <- (R_e _ _ _ _ HR)].
  - unfold cursor. rewrite (R_rd _ _ _ _ HR), r_num_rpos. lia.
Qed.
Lemma Rel_cursor cc t a s : Rel cc (Some t) a s -> cursor s = a_k a.
Proof. intros HR. unfold cursor. rewrite (R_rd _ _ _ _ HR), r_num_rpos. lia. Qed.
Lemma Rel_ndiffs cc T a s : Rel cc T a s -> diffs s = ndiffs a.
Proof. intros HR. apply (acc_diffs _ _ (R_acc _ _ _ _ HR)). Qed.
Lemma Rel_nfails cc T a s : Rel cc T a s -> errors s = nfails a.
Proof. intros HR. apply (acc_errors _ _ (R_acc _ _ _ _ HR)). Qed.
Lemma rl_no_nl f : Forall (fun x : str => ~ In NL x) (rlines (univ_newlines f)).
Proof. rewrite rlines_snapshot. apply snapshot_lines_no_nl. Qed.

(** one more line that differs, unless line [k] of the snapshot is [l] *)
Definition counts_line (ls : list str) (k : nat) (l : str) (n n' : nat) : Prop :=
  (nth_error ls k = Some l -> n' = n) /\ (nth_error ls k <> Some l -> n' = S n).
Lemma counts_miss ls k l n : counts_line ls k l n (n + miss ls k l).
Proof. unfold miss. split; intros H; [apply line_is_iff in H; rewrite H; lia|]. destruct (line_is ls k l) eqn:E; [apply line_is_iff in E; contradiction|lia]. Qed.

Ltac start_of H := destruct (run_fresh _ ltac:(eassumption) _ _ _ _ _ H) as (a & HR & HF & HC).

Theorem C73_tln :
  forall cc, TokClassOK cc -> forall refloat f point ops s x,
  at_line_start cc refloat f point ops s -> ~ In NL x -> ~ In NUL x ->
  exists s', exec cc refloat (OTln x) s = Some s' /\ errors s' = errors s /\
    cursor s' = Nat.min (S (cursor s)) (length (snapshot_lines f)) /\
    counts_line (snapshot_lines f) (cursor s) x (diffs s) (diffs s').
Proof.
  intros cc TOK refloat f point ops s x H Hn Hu. start_of H.
  destruct (tln_exact cc TOK _ (rl_no_nl f) a s x HR HF Hn Hu) as (a' & s' & E & R' & _ & K & _ & X & D). exists s'. split; [exact E|].
  rewrite (Rel_nfails _ _ _ _ R'), (Rel_nfails _ _ _ _ HR), (Rel_cursor _ _ _ _ R'), (Rel_ndiffs _ _ _ _ R'), (Rel_ndiffs _ _ _ _ HR).
  rewrite rlines_snapshot, HC in *. split; [exact X|]. split; [exact K|]. rewrite D. apply counts_miss.
Qed.
Print Assumptions C73_tln.

(** anchorln goes to the first line from here on that is the anchor, else to the first such line of the snapshot, else nowhere. It
    counts a difference iff the snapshot does not have the line at all. *)
Theorem C73_anchorln :
  forall cc, TokClassOK cc -> forall refloat f point ops s x,
  at_line_start cc refloat f point ops s -> ~ In NL x -> ~ In NUL x ->
  exists s' k, exec cc refloat (OAnchorln x) s = Some s' /\ errors s' = errors s /\
    seek_spec (fun l => str_eqb l x) (snapshot_lines f) (cursor s) k /\
    cursor s' = Nat.min (S k) (length (snapshot_lines f)) /\
    counts_line (snapshot_lines f) k x (diffs s) (diffs s') /\
    (diffs s' = diffs s <-> In x (snapshot_lines f)).
Proof.
  intros cc TOK refloat f point ops s x H Hn Hu. start_of H.
  destruct (anchorln_exact cc TOK _ (rl_no_nl f) a s x HR HF Hn Hu) as (a' & s' & E & R' & _ & K & _ & X & D).
  pose proof (R_k _ _ _ _ HR) as Hk. cbn [nlines] in Hk. pose proof (seek_pos_spec (fun l => str_eqb l x) _ _ Hk) as SP. set (k := seek_pos _ _ _) in *.
  exists s', k. split; [exact E|]. rewrite (Rel_nfails _ _ _ _ R'), (Rel_nfails _ _ _ _ HR), (Rel_cursor _ _ _ _ R'), (Rel_ndiffs _ _ _ _ R'), (Rel_ndiffs _ _ _ _ HR).
  rewrite rlines_snapshot, HC in *. split; [exact X|]. split; [exact SP|]. split; [exact K|]. split; [rewrite D; apply counts_miss|].
  destruct (counts_miss (snapshot_lines f) k x (ndiffs a)) as [C1 C2]. rewrite <- D in C1, C2. split.
  - intros Z. destruct (line_is (snapshot_lines f) k x) eqn:EL; [apply line_is_iff in EL; now apply nth_error_In in EL|].
    assert (nth_error (snapshot_lines f) k <> Some x) by (intros L; apply line_is_iff in L; congruence). specialize (C2 H0). lia.
  - intros I. apply C1. apply In_nth_error in I as [i Hi]. destruct SP as [(_ & (l & Hl & El) & _)|[(_ & (l & Hl & El) & _)|(_ & N0)]].
    + apply str_eqb_eq in El. now subst.
    + apply str_eqb_eq in El. now subst.
    + elim (N0 i). exists x. split; [exact Hi|apply str_eqb_refl].
Qed.
Print Assumptions C73_anchorln.

(** anchor goes to a line that starts with the anchor; nothing is counted yet. *)
Theorem C73_anchor :
  forall cc, TokClassOK cc -> forall refloat f point ops s x,
  at_line_start cc refloat f point ops s -> ~ In NL x -> ~ In NUL x ->
  exists s', exec cc refloat (OAnchor x) s = Some s' /\ errors s' = errors s /\ diffs s' = diffs s /\ out_line s' = x /\
    seek_spec (fun l => starts_with x l) (snapshot_lines f) (cursor s) (cursor s').
Proof.
  intros cc TOK refloat f point ops s x H Hn Hu. start_of H.
  destruct (anchor_exact cc TOK _ a s x HR HF Hn Hu) as (a' & s' & E & R' & K & C & D & X). exists s'. split; [exact E|].
  rewrite (Rel_nfails _ _ _ _ R'), (Rel_nfails _ _ _ _ HR), (Rel_cursor _ _ _ _ R'), (Rel_ndiffs _ _ _ _ R'), (Rel_ndiffs _ _ _ _ HR).
  split; [exact X|]. split; [exact D|]. split; [rewrite (R_cur _ _ _ _ R'); exact C|]. pose proof (R_k _ _ _ _ HR) as Hk. cbn [nlines] in Hk.
  rewrite K, rlines_snapshot, HC in *. now apply seek_pos_spec.
Qed.
Print Assumptions C73_anchor.

(** keyvalueln goes to a line that starts with the key. Not counting a difference means the line is there; the converse needs the
    key and the rest to be split into tokens as the whole line is. *)
Theorem C73_keyvalueln :
  forall cc, TokClassOK cc -> forall refloat f point ops s k v,
  at_line_start cc refloat f point ops s -> ~ In NL (k ++ [SP] ++ v) -> ~ In NUL (k ++ [SP] ++ v) ->
  exists s' n, exec cc refloat (OKeyvalueln k v) s = Some s' /\ errors s' = errors s /\
    seek_spec (fun l => starts_with k l) (snapshot_lines f) (cursor s) n /\
    cursor s' = Nat.min (S n) (length (snapshot_lines f)) /\
    diffs s <= diffs s' <= S (diffs s) /\
    (diffs s' = diffs s -> nth_error (snapshot_lines f) n = Some (k ++ [SP] ++ v)) /\
    ((exists tk tv, tokenize cc k = Some tk /\ tokenize cc ([SP] ++ v) = Some tv /\ tokenize cc (k ++ [SP] ++ v) = Some (tk ++ tv)) ->
     nth_error (snapshot_lines f) n = Some (k ++ [SP] ++ v) -> diffs s' = diffs s).
Proof.
  intros cc TOK refloat f point ops s k v H Hn Hu. start_of H.
  destruct (keyvalueln_exact cc TOK _ (rl_no_nl f) a s k v HR HF Hn Hu) as (a' & s' & E & R' & _ & K & X & B & D1 & D2).
  pose proof (R_k _ _ _ _ HR) as Hk. cbn [nlines] in Hk. pose proof (seek_pos_spec (fun l => starts_with k l) _ _ Hk) as SP. set (n := seek_pos _ _ _) in *.
  exists s', n. split; [exact E|]. rewrite (Rel_nfails _ _ _ _ R'), (Rel_nfails _ _ _ _ HR), (Rel_cursor _ _ _ _ R'), (Rel_ndiffs _ _ _ _ R'), (Rel_ndiffs _ _ _ _ HR).
  rewrite rlines_snapshot, HC in *. repeat (split; [assumption|]). assumption.
Qed.
Print Assumptions C73_keyvalueln.

(** A header first ends the line it is on, then goes to its line, counted like anchorln, and is followed by an empty line. The empty
    line before it is compared only if the line before was compared and the snapshot is not at its end. *)
Theorem C73_header :
  forall cc, TokClassOK cc -> forall refloat f point ops s h,
  at_line_start cc refloat f point ops s -> ~ In NL h -> ~ In NUL h ->
  exists s' n d1 d2, exec cc refloat (OHeader h) s = Some s' /\ errors s' = errors s /\
    let ls := snapshot_lines f in
    let first := Nat.eqb (line_number s) 0 in
    (if first || negb (last_checked s) || Nat.leb (length ls) (cursor s) then d1 = diffs s else counts_line ls (cursor s) [] (diffs s) d1) /\
    seek_spec (fun l => str_eqb l h) ls (if first then cursor s else Nat.min (S (cursor s)) (length ls)) n /\
    counts_line ls n h d1 d2 /\ counts_line ls (S n) [] d2 (diffs s') /\
    cursor s' = Nat.min (S (S n)) (length ls).
Proof.
  intros cc TOK refloat f point ops s h H Hn Hu. start_of H.
  destruct (header_exact cc TOK _ (rl_no_nl f) a s h HR HF Hn Hu) as (a' & s' & E & R' & _ & K & X & D).
  pose proof (Rel_started cc _ a s HR) as ST. assert (FS : Nat.eqb (line_number s) 0 = negb (started a)) by (rewrite <- ST; destruct (line_number s); reflexivity).
  set (k0 := if started a then _ else _) in *. pose proof (R_k _ _ _ _ HR) as Hk. cbn [nlines] in Hk.
  assert (Hk0 : k0 <= length (rlines (univ_newlines f))) by (subst k0; destruct (started a); lia).
  pose proof (seek_pos_spec (fun l => str_eqb l h) _ _ Hk0) as SP. set (n := seek_pos _ _ _) in *.
  rewrite rlines_snapshot in *.
  eexists s', n, _, _. split; [exact E|]. cbn zeta. rewrite (Rel_nfails _ _ _ _ R'), (Rel_nfails _ _ _ _ HR), (Rel_cursor _ _ _ _ R'), (Rel_ndiffs _ _ _ _ R').
  split; [exact X|]. rewrite D. split; [|split; [|split; [apply counts_miss|split; [apply counts_miss|exact K]]]].
  - rewrite (Rel_ndiffs _ _ _ _ HR), FS, (R_lc _ _ _ _ HR), <- HC. set (ls := snapshot_lines f) in *.
    destruct (started a); cbn [negb orb andb]; [|lia]. destruct (a_lc a); cbn [negb orb andb]; [|lia].
    destruct (Nat.leb_spec (length ls) (a_k a)) as [L|L].
    + apply nth_error_None in L. rewrite L. lia.
    + apply nth_error_Some in L. destruct (nth_error ls (a_k a)) eqn:EN; [|easy]. apply counts_miss.
  - rewrite FS, <- HC. subst k0. rewrite rlines_snapshot in SP. destruct (started a); exact SP.
Qed.
Print Assumptions C73_header.

(** tlist compares its items with as many lines, from here on. *)
Fixpoint lines_missed (ls : list str) (k : nat) (xs : list str) : nat :=
  match xs with
  | [] => 0
  | x :: r => (if match nth_error ls k with Some l => str_eqb l x | None => false end then 0 else 1) + lines_missed ls (S k) r
  end.
Theorem C73_tlist :
  forall cc, TokClassOK cc -> forall refloat f point ops s items prefix,
  at_line_start cc refloat f point ops s -> Forall (fun i => ~ In NL (prefix ++ i) /\ ~ In NUL (prefix ++ i)) items ->
  exists s', exec cc refloat (OTlist items prefix) s = Some s' /\ errors s' = errors s /\
    cursor s' = Nat.min (cursor s + length items) (length (snapshot_lines f)) /\
    diffs s' = diffs s + lines_missed (snapshot_lines f) (cursor s) (map (fun i => prefix ++ i) items).
Proof.
  intros cc TOK refloat f point ops s items prefix H HI. start_of H.
  destruct (tlist_exact cc TOK _ (rl_no_nl f) prefix items a s HR HF HI) as (a' & s' & E & R' & _ & K & X & D). exists s'. split; [exact E|].
  rewrite (Rel_nfails _ _ _ _ R'), (Rel_nfails _ _ _ _ HR), (Rel_cursor _ _ _ _ R'), (Rel_ndiffs _ _ _ _ R'), (Rel_ndiffs _ _ _ _ HR).
  rewrite rlines_snapshot, HC in *. repeat (split; [assumption|]). exact D.
Qed.
Print Assumptions C73_tlist.

(** C74. The old value: ifloatln reads the token of the snapshot that stands where the value is written, that is at the line
    compared with and after as many tokens as were written on the line; if it is a number, it is appended. *)
Theorem C74_ifloatln_was :
  forall cc, TokClassOK cc -> forall refloat f point ops s v u s',
  placed true false ops = true -> run_body cc refloat (Some f) point ops = Some s ->
  exec cc refloat (OIfloatln v u) s = Some s' ->
  exists tl, ops_feed cc [] ops tl /\
    out s' ++ out_line s' = out s ++ out_line s ++ v ++ unit_text u ++
      match expected_token cc (snapshot_lines f) (cursor s) (length (open_tokens tl)) with
      | Some x => match refloat x with Some o => lit " (was " ++ o ++ unit_text u ++ lit ")" | None => [] end
      | None => []
      end ++ [NL].
Proof.
  intros cc TOK refloat f point ops s v u s' HP H E. destruct (run_body_feeds cc TOK refloat f point ops s HP H) as (a & tl & HR & HI & HF).
  exists tl. split; [exact HF|]. cbn [exec] in E. unfold op_ifloatln in E. rewrite (R_rd _ _ _ _ HR), head_exp_token_rpos, exp_tok_eq, (I_j _ _ _ _ HI) in E.
  change (match u with Some u0 => [SP] ++ u0 | None => [] end) with (unit_text u) in *.
  rewrite (Rel_cursor _ _ _ _ HR), <- rlines_snapshot.
  set (e := expected_token cc _ (a_k a) (length (open_tokens tl))) in *.
  set (was := match e with Some x => match refloat x with Some o => lit " (was " ++ o ++ unit_text u ++ lit ")" | None => [] end | None => [] end).
  assert (H2 : bind (op_i cc (v ++ unit_text u) s) (op_iln cc was) = Some s').
  { rewrite <- E. unfold was. destruct e as [x|]; [destruct (refloat x)|]; reflexivity. }
  destruct (writes_bind cc _ _ _ _ _ (writes_feed cc TOK _ false (v ++ unit_text u)) (writes_feedln cc TOK _ false was) a s s' HR H2) as (ps & [_ R'] & W).
  rewrite (Rel_text _ _ _ _ R'), asteps_text, W, <- (Rel_text _ _ _ _ HR), <- !app_assoc. reflexivity.
Qed.
Print Assumptions C74_ifloatln_was.

(** A report with a list, an anchored line, a key with a value and a header, compared with a snapshot in another order. *)
Definition demo_snapshot : str :=
  lines_text [lit "# report"; []; lit "size 3"; lit " * a"; lit " * b"; lit "speed 1"; []; lit "# end"; []].
Definition demo_calls : list op := [OH 1 (lit "report"); OKeyvalueln (lit "size") (lit "3"); OTlist [lit "a"; lit "c"] (lit " * ")].
Example C73_examples : exists s, at_line_start ascii_class no_float demo_snapshot true demo_calls s /\
  cursor s = 5 /\ diffs s = 1 /\ last_checked s = true /\ line_number s = 5 /\
  (exists s', exec ascii_class no_float (OTln (lit "speed 1")) s = Some s' /\ diffs s' = 1 /\ cursor s' = 6) /\
  (exists s', exec ascii_class no_float (OAnchorln (lit "size 3")) s = Some s' /\ diffs s' = 1 /\ cursor s' = 3) /\
  (exists s', exec ascii_class no_float (OAnchorln (lit "size")) s = Some s' /\ diffs s' = 2 /\ cursor s' = 6) /\
  (exists s', exec ascii_class no_float (OAnchor (lit "size")) s = Some s' /\ diffs s' = 1 /\ cursor s' = 2) /\
  (exists s', exec ascii_class no_float (OKeyvalueln (lit "size") (lit "4")) s = Some s' /\ diffs s' = 2 /\ cursor s' = 3) /\
  (exists s', exec ascii_class no_float (OHeader (lit "# end")) s = Some s' /\ diffs s' = 2 /\ cursor s' = 9) /\
  (exists s', exec ascii_class no_float (OTlist [lit "a"; lit "b"] []) s = Some s' /\ diffs s' = 3 /\ cursor s' = 7) /\
  tokenize ascii_class (lit "size 4") = Some ([lit "size"] ++ [lit " "; lit "4"]) /\
  forallb (fun o => forallb (fun l => negb (has_nl l)) (checked_lines o)) demo_calls = true.
Proof.
  eexists. split; [split; [vm_compute; reflexivity|split; [vm_compute; reflexivity|split; [vm_compute; reflexivity|split; reflexivity]]]|].
  do 4 (split; [reflexivity|]).
  do 7 (split; [eexists; split; [vm_compute; reflexivity|split; reflexivity]|]).
  split; vm_compute; reflexivity.
Qed.

(** The list item "c" is reported although everything else is found; with "b" the verdict is OK, and the lines are in the snapshot. *)
Example C72_example :
  (exists s, demo (Some demo_snapshot) demo_calls = Some s /\ verdict true s = DIFF) /\
  (exists s, demo (Some demo_snapshot) [OH 1 (lit "report"); OKeyvalueln (lit "size") (lit "3"); OTlist [lit "a"; lit "b"] (lit " * ")] = Some s /\ verdict true s = OK) /\
  map checked_lines demo_calls = [[lit "# report"; []]; [lit "size 3"]; [lit " * a"; lit " * c"]].
Proof. split; [|split; [|vm_compute; reflexivity]]; eexists; (split; [vm_compute; reflexivity|reflexivity]). Qed.

(** After "speed " the value 2 is written; the snapshot has 1 there. *)
Example C74_example :
  let num x := if str_eqb x (lit "1") then Some (lit "1.000") else None in
  exists s s', run_body ascii_class num (Some demo_snapshot) true [OAnchor (lit "speed"); OI (lit " ")] = Some s /\
    placed true false [OAnchor (lit "speed"); OI (lit " ")] = true /\
    exec ascii_class num (OIfloatln (lit "2.000") (Some (lit "s"))) s = Some s' /\
    out s' = lit "speed 2.000 s (was 1.000 s)" ++ [NL] /\ cursor s = 5.
Proof. cbn zeta. eexists. eexists. split; [vm_compute; reflexivity|]. split; [reflexivity|]. split; [vm_compute; reflexivity|]. split; vm_compute; reflexivity. Qed.
