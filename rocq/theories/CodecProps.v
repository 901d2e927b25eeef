(** The base64 text of a body (requests.py:27-32, httpx.py:156-163), as RFC 4648 describes it. *)
From Verif Require Import BytesModel.
From Coq Require Import NArith Lia.

Definition alphabet : str := lit "ABCDEFGHIJKLMNOPQRSTUVWXYZabcdefghijklmnopqrstuvwxyz0123456789+/".
Definition bits (x : N) : list bool := map (fun i => N.testbit x i) [7; 6; 5; 4; 3; 2; 1; 0]%N.
Definition value (l : list bool) : N := fold_left (fun n (b : bool) => (2 * n + if b then 1 else 0)%N) l 0%N.
Definition letter (l : list bool) : char := nth (N.to_nat (value l)) alphabet 0%N.
(** six bits at a time, the last group is filled with zeros *)
Fixpoint letters (l : list bool) : str :=
  match l with
  | [] => []
  | [a; b] => [letter [a; b; false; false; false; false]]
  | [a; b; c; d] => [letter [a; b; c; d; false; false]]
  | a :: b :: c :: d :: e :: f :: r => letter [a; b; c; d; e; f] :: letters r
  | _ => []
  end.
Definition filling (n : nat) : str := match n mod 3 with 1 => lit "==" | 2 => lit "=" | _ => [] end.

Fixpoint below (n : nat) (P : N -> bool) : bool := match n with 0 => true | S m => P (N.of_nat m) && below m P end.
Lemma below_ok n P : below n P = true -> forall x, (x < N.of_nat n)%N -> P x = true.
Proof.
  induction n as [|n IH]; [intros _ x H; lia|]. cbn [below]. intros H x L. apply andb_prop in H. destruct H as [H1 H2].
  destruct (N.eq_dec x (N.of_nat n)) as [->|NE]; [exact H1|]. apply IH; [exact H2|lia].
Qed.
Definition cut (n k : nat) (l : list bool) := firstn k (skipn n l).
Definition cuts_ok (x : N) : bool :=
  let b := bits x in
  ((value (cut 0 6 b) =? x / 4) && (value (cut 6 2 b) =? x mod 4) && (value (cut 0 4 b) =? x / 16) && (value (cut 4 4 b) =? x mod 16) &&
   (value (cut 0 2 b) =? x / 64) && (value (cut 2 6 b) =? x mod 64))%N.
Lemma cuts x : is_byte x ->
  (value (cut 0 6 (bits x)) = x / 4 /\ value (cut 6 2 (bits x)) = x mod 4 /\ value (cut 0 4 (bits x)) = x / 16 /\ value (cut 4 4 (bits x)) = x mod 16 /\
   value (cut 0 2 (bits x)) = x / 64 /\ value (cut 2 6 (bits x)) = x mod 64)%N.
Proof.
  intros B. assert (H : cuts_ok x = true) by (apply (below_ok 256); [vm_compute; reflexivity|exact B]).
  unfold cuts_ok in H. repeat (apply andb_prop in H; destruct H as [H ?]). repeat split; now apply N.eqb_eq.
Qed.
Lemma char_letter n : (n < 64)%N -> b64_char n = nth (N.to_nat n) alphabet 0%N.
Proof. intros L. apply N.eqb_eq. apply (below_ok 64 (fun n => b64_char n =? nth (N.to_nat n) alphabet 0)%N); [vm_compute; reflexivity|exact L]. Qed.
Lemma value_lt l : (value l < 2 ^ N.of_nat (length l))%N.
Proof.
  unfold value. assert (G : forall l a m, (a < 2 ^ m)%N -> (fold_left (fun n (b : bool) => 2 * n + if b then 1 else 0) l a < 2 ^ (m + N.of_nat (length l)))%N).
  { clear l. induction l as [|b l IH]; intros a m H; cbn [fold_left length]; [now rewrite N.add_0_r|].
    replace (m + N.of_nat (S (length l)))%N with ((m + 1) + N.of_nat (length l))%N by lia. apply IH. rewrite N.pow_add_r. change (2 ^ 1)%N with 2%N. destruct b; lia. }
  apply (G l 0%N 0%N). reflexivity.
Qed.
Lemma letter_char l n : length l = 6 -> value l = n -> letter l = b64_char n.
Proof.
  intros L <-. unfold letter. rewrite char_letter; [reflexivity|]. pose proof (value_lt l) as V. rewrite L in V. exact V.
Qed.

(** C118: the text that stands for a body in the snapshot of httpx *)
Theorem C118_base64 b : Forall is_byte b -> b64encode b = letters (flat_map bits b) ++ filling (length b).
Proof.
  assert (G : forall n b, length b <= n -> Forall is_byte b -> b64encode b = letters (flat_map bits b) ++ filling (length b)).
  2: { intros F. now apply (G (length b)). }
  clear b. induction n as [|n IH]; intros b L F.
  { destruct b; [reflexivity|cbn in L; lia]. }
  destruct b as [|x [|y [|z r]]]; [reflexivity| | |].
  - apply Forall_inv in F. destruct (cuts x F) as (A & B & _). unfold bits, cut in A, B. cbn [map firstn skipn] in A, B.
    unfold bits. cbn [flat_map map app letters length b64encode].
    rewrite (letter_char [N.testbit x 7; _; _; _; _; _] (x / 4)%N); [|reflexivity|exact A].
    rewrite (letter_char [_; _; false; false; false; false] (x mod 4 * 16)%N); [reflexivity|reflexivity|rewrite <- B; unfold value; cbn [fold_left]; lia].
  - inversion F as [|? ? FX F']; subst. apply Forall_inv in F'. destruct (cuts x FX) as (A & B & _). destruct (cuts y F') as (_ & _ & C & D & _).
    unfold bits, cut in A, B, C, D. cbn [map firstn skipn] in A, B, C, D. unfold bits. cbn [flat_map map app letters length b64encode].
    rewrite (letter_char [N.testbit x 7; _; _; _; _; _] (x / 4)%N); [|reflexivity|exact A].
    rewrite (letter_char [N.testbit x 1; _; _; _; _; _] (x mod 4 * 16 + y / 16)%N); [|reflexivity|rewrite <- B, <- C; unfold value; cbn [fold_left]; lia].
    rewrite (letter_char [_; _; _; _; false; false] (y mod 16 * 4)%N); [reflexivity|reflexivity|rewrite <- D; unfold value; cbn [fold_left]; lia].
  - inversion F as [|? ? FX F']; subst. inversion F' as [|? ? FY F2]; subst. inversion F2 as [|? ? FZ FR]; subst.
    destruct (cuts x FX) as (A & B & _). destruct (cuts y FY) as (_ & _ & C & D & _). destruct (cuts z FZ) as (_ & _ & _ & _ & E & G).
    unfold bits, cut in A, B, C, D, E, G. cbn [map firstn skipn] in A, B, C, D, E, G.
    assert (R : b64encode r = letters (flat_map bits r) ++ filling (length r)) by (apply IH; [cbn in L; lia|exact FR]).
    assert (FL : filling (length (x :: y :: z :: r)) = filling (length r)).
    { assert (M : forall m, filling (S (S (S m))) = filling m).
      { intros m. unfold filling. replace (S (S (S m))) with (m + 1 * 3) by lia. now rewrite Nat.mod_add by lia. }
      apply M. }
    assert (BX : forall c, bits c = map (fun i => N.testbit c i) [7; 6; 5; 4; 3; 2; 1; 0]%N) by reflexivity. cbn [map] in BX.
    rewrite FL. cbn [flat_map b64encode]. rewrite R, (BX x), (BX y), (BX z). cbn [app letters].
    rewrite (letter_char [N.testbit x 7; _; _; _; _; _] (x / 4)%N); [|reflexivity|exact A].
    rewrite (letter_char [N.testbit x 1; _; _; _; _; _] (x mod 4 * 16 + y / 16)%N); [|reflexivity|rewrite <- B, <- C; unfold value; cbn [fold_left]; lia].
    rewrite (letter_char [N.testbit y 3; _; _; _; _; _] (y mod 16 * 4 + z / 64)%N); [|reflexivity|rewrite <- D, <- E; unfold value; cbn [fold_left]; lia].
    rewrite (letter_char [N.testbit z 5; _; _; _; _; _] (z mod 64)%N); [|reflexivity|exact G]. reflexivity.
Qed.
Print Assumptions C118_base64.
Example C118_base64_ex : b64encode (lit "foobar") = lit "Zm9vYmFy" /\ b64encode (lit "fooba") = lit "Zm9vYmE=" /\ b64encode (lit "foob") = lit "Zm9vYg==".
Proof. vm_compute. auto. Qed.
