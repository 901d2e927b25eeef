(** A concrete hash that meets what the HTTP theorems assume of SHA-1 of the sorted JSON text: equal exactly for the
    same JSON objects. It is the object itself, with sorted headers, written as a list of numbers. *)
From Verif Require Import PyStrFacts HttpModel HttpProofs.
From Coq Require Import Lia.

Fixpoint slt (a b : str) : bool :=
  match a, b with
  | _, [] => false
  | [], _ :: _ => true
  | x :: a', y :: b' => N.ltb x y || (N.eqb x y && slt a' b')
  end.
Lemma slt_irrefl a : slt a a = false.
Proof. induction a as [|x a IH]; [reflexivity|]. cbn [slt]. rewrite N.ltb_irrefl, N.eqb_refl. exact IH. Qed.
Lemma slt_trans a : forall b c, slt a b = true -> slt b c = true -> slt a c = true.
Proof.
  induction a as [|x a IH]; intros [|y b] [|z c]; cbn [slt]; try discriminate; auto.
  rewrite !orb_true_iff, !andb_true_iff, !N.ltb_lt, !N.eqb_eq. intros [A|[-> A]] [B|[-> B]].
  - left. lia.
  - left. exact A.
  - left. exact B.
  - right. split; [reflexivity|]. now apply (IH b).
Qed.
Lemma slt_total a : forall b, slt a b = false -> a <> b -> slt b a = true.
Proof.
  induction a as [|x a IH]; intros [|y b]; cbn [slt]; try congruence; try discriminate; auto.
  rewrite orb_false_iff, andb_false_iff, N.ltb_ge, N.eqb_neq, orb_true_iff, andb_true_iff, N.ltb_lt, N.eqb_eq.
  intros [A B] D. destruct (N.eq_dec x y) as [->|NE]; [|left; lia]. right. split; [reflexivity|]. destruct B as [B|B]; [congruence|].
  apply IH; [exact B|congruence].
Qed.

Fixpoint ins (k v : str) (l : list (str * str)) : list (str * str) :=
  match l with
  | [] => [(k, v)]
  | (j, w) :: r => if str_eqb j k then (k, v) :: r else if slt k j then (k, v) :: l else (j, w) :: ins k v r
  end.
Fixpoint canon (l : list (str * str)) : list (str * str) :=
  match l with
  | [] => []
  | (k, v) :: r => ins k v (canon r)
  end.
Inductive sorted : list (str * str) -> Prop :=
| sorted_nil : sorted []
| sorted_cons k v l : sorted l -> (forall j w, In (j, w) l -> slt k j = true) -> sorted ((k, v) :: l).
Lemma ins_In k v l j w : In (j, w) (ins k v l) -> (j, w) = (k, v) \/ In (j, w) l.
Proof.
  induction l as [|[i x] l IH]; cbn [ins]; [cbn; intuition auto|].
  destruct (str_eqb i k); [cbn [In]; intuition auto|]. destruct (slt k i); [cbn [In]; intuition auto|]. cbn [In]. intuition auto.
Qed.
Lemma ins_sorted k v l : sorted l -> sorted (ins k v l).
Proof.
  induction 1 as [|j w l S IH LT]; cbn [ins]; [constructor; [constructor|easy]|].
  destruct (str_eqb_spec j k) as [->|NE]; [constructor; assumption|]. destruct (slt k j) eqn:E.
  - constructor; [constructor; assumption|]. intros i x [EQ|I]; [injection EQ as <- _; exact E|]. apply (slt_trans _ j); [exact E|]. eapply LT; eassumption.
  - constructor; [exact IH|]. intros i x I. apply ins_In in I. destruct I as [EQ|I]; [injection EQ as -> ->; apply slt_total; congruence|]. eapply LT; eassumption.
Qed.
Lemma canon_sorted l : sorted (canon l).
Proof. induction l as [|[k v] l IH]; [constructor|]. now apply ins_sorted. Qed.
Lemma hget_ins h k v l : hget h (ins k v l) = if str_eqb k h then Some v else hget h l.
Proof.
  induction l as [|[j w] l IH]; cbn [ins hget]; [reflexivity|].
  destruct (str_eqb_spec j k) as [->|NE]; [cbn [hget]; now destruct (str_eqb k h)|].
  destruct (slt k j); cbn [hget]; [reflexivity|]. rewrite IH. destruct (str_eqb_spec j h) as [->|]; [|reflexivity].
  destruct (str_eqb_spec k h); congruence.
Qed.
Lemma hget_canon h l : hget h (canon l) = hget h l.
Proof. induction l as [|[k v] l IH]; [reflexivity|]. cbn [canon hget]. rewrite hget_ins, IH. reflexivity. Qed.
Lemma hget_In h l v : hget h l = Some v -> In (h, v) l.
Proof. induction l as [|[k w] l IH]; [discriminate|]. cbn [hget]. destruct (str_eqb_spec k h) as [->|]; [intros E; injection E as ->; now left|]. right. auto. Qed.
Lemma sorted_ext l : sorted l -> forall m, sorted m -> (forall h, hget h l = hget h m) -> l = m.
Proof.
  induction 1 as [|k v l S IH LT]; intros m SM H.
  - destruct m as [|[j w] m]; [reflexivity|]. specialize (H j). cbn [hget] in H. rewrite str_eqb_refl in H. discriminate.
  - destruct SM as [|j w m SM LT']; [specialize (H k); cbn [hget] in H; rewrite str_eqb_refl in H; discriminate|].
    assert (KJ : k = j).
    { destruct (str_dec k j) as [|NE]; [assumption|]. exfalso.
      pose proof (H k) as HK. pose proof (H j) as HJ. cbn [hget] in HK, HJ. rewrite str_eqb_refl in HK, HJ.
      destruct (str_eqb_spec j k) as [|_]; [congruence|]. destruct (str_eqb_spec k j) as [|_]; [congruence|].
      symmetry in HK. apply hget_In in HK. apply hget_In in HJ. apply LT' in HK. apply LT in HJ.
      pose proof (slt_trans _ _ _ HK HJ) as T. rewrite slt_irrefl in T. discriminate. }
    subst j. pose proof (H k) as HK. cbn [hget] in HK. rewrite str_eqb_refl in HK. injection HK as ->. f_equal. apply IH; [exact SM|].
    intros h. pose proof (H h) as Hh. cbn [hget] in Hh. destruct (str_eqb_spec k h) as [->|]; [|exact Hh].
    assert (N : forall l, (forall i x, In (i, x) l -> slt h i = true) -> hget h l = None).
    { intros l0 L0. destruct (hget h l0) eqn:E; [|reflexivity]. apply hget_In in E. apply L0 in E. rewrite slt_irrefl in E. discriminate. }
    now rewrite (N l LT), (N m LT').
Qed.
Lemma canon_ext g h : canon g = canon h <-> forall k, hget k g = hget k h.
Proof.
  split; [intros E k; now rewrite <- (hget_canon k g), E, hget_canon|].
  intros H. apply sorted_ext; try apply canon_sorted. intros k. now rewrite !hget_canon.
Qed.

Definition enc (s : str) : str := N.of_nat (length s) :: s.
Lemma enc_inj s : forall t a b, enc s ++ a = enc t ++ b -> s = t /\ a = b.
Proof.
  intros t a b E. injection E as L E. apply Nat2N.inj in L. revert t L E.
  induction s as [|x s IH]; intros [|y t] L E; try discriminate; [now split|]. injection E as -> E. injection L as L.
  destruct (IH t L E) as [-> ->]. now split.
Qed.
Definition enc_opt {A} (e : A -> str) (o : option A) : str := match o with Some x => 1%N :: e x | None => [0%N] end.
Lemma enc_opt_inj {A} (e : A -> str) (INJ : forall x y a b, e x ++ a = e y ++ b -> x = y /\ a = b) o p a b :
  enc_opt e o ++ a = enc_opt e p ++ b -> o = p /\ a = b.
Proof.
  destruct o as [x|], p as [y|]; cbn; intros E; injection E; try discriminate; intros E'; [|now split].
  destruct (INJ _ _ _ _ E') as [-> ->]. now split.
Qed.
Fixpoint enc_list (l : list (str * str)) : str :=
  match l with
  | [] => [0%N]
  | (k, v) :: r => 1%N :: enc k ++ enc v ++ enc_list r
  end.
Lemma enc_list_inj l : forall m a b, enc_list l ++ a = enc_list m ++ b -> l = m /\ a = b.
Proof.
  induction l as [|[k v] l IH]; intros [|[j w] m] a b E; try discriminate.
  - injection E. now split.
  - cbn [enc_list app] in E. apply (f_equal (@tl N)) in E. cbn [tl] in E. rewrite <- !app_assoc in E. apply enc_inj in E. destruct E as [-> E].
    apply enc_inj in E. destruct E as [-> E]. apply IH in E. destruct E as [-> ->]. now split.
Qed.
Definition enc_nat (n : nat) : str := [N.of_nat n].

Definition demo_sha (o : obj) : str :=
  enc (o_url o) ++ enc (o_method o) ++ enc_opt (fun h => enc_list (canon h)) (o_headers o) ++ enc_opt enc (o_body o) ++ enc_opt enc_nat (o_order o).

Lemma demo_sha_inj a b : demo_sha a = demo_sha b -> same a b.
Proof.
  unfold demo_sha. intros E. apply enc_inj in E. destruct E as [U E]. apply enc_inj in E. destruct E as [M E].
  assert (HO : enc_opt enc_list (option_map canon (o_headers a)) ++ enc_opt enc (o_body a) ++ enc_opt enc_nat (o_order a) =
               enc_opt enc_list (option_map canon (o_headers b)) ++ enc_opt enc (o_body b) ++ enc_opt enc_nat (o_order b))
    by (destruct (o_headers a), (o_headers b); exact E).
  apply (enc_opt_inj _ enc_list_inj) in HO. destruct HO as [H HO]. apply (enc_opt_inj _ enc_inj) in HO. destruct HO as [B HO].
  assert (O : o_order a = o_order b).
  { destruct (o_order a), (o_order b); cbn in HO; try discriminate; [|reflexivity]. injection HO as HO. apply Nat2N.inj in HO. congruence. }
  unfold same. repeat split; auto. destruct (o_headers a), (o_headers b); cbn in H; try discriminate; auto. apply canon_ext. congruence.
Qed.
Lemma demo_sha_same a b : same a b -> demo_sha a = demo_sha b.
Proof.
  unfold same, demo_sha. intros (-> & -> & -> & -> & H). do 2 f_equal. f_equal. destruct (o_headers a), (o_headers b); try easy. cbn. f_equal. f_equal.
  now apply canon_ext.
Qed.
