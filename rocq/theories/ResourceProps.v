(** C138: which tests exclude each other. *)
From Verif Require Import PyStrFacts SchedProps.
From Verif Require Export SchedSpec ResourceModel.
From Coq Require Import ZArith Lia.

Lemma ident_eqb_refl a : ident_eqb a a = true.
Proof. destruct a as [z|b|s]; cbn [ident_eqb]; [apply Z.eqb_refl|now destruct b|apply str_eqb_refl]. Qed.
Lemma ident_eqb_sym a b : ident_eqb a b = ident_eqb b a.
Proof.
  destruct a as [z|b1|s], b as [z'|b2|s']; cbn [ident_eqb]; try reflexivity.
  - apply Z.eqb_sym.
  - apply Z.eqb_sym.
  - apply Z.eqb_sym.
  - now destruct b1, b2.
  - destruct (str_eqb_spec s s') as [->|N]; [now rewrite str_eqb_refl|]. symmetry. apply str_eqb_neq. congruence.
Qed.
Definition norm (a : ident) : Z + str := match a with IInt z => inl z | IBool b => inl (int_of b) | IStr s => inr s end.
Lemma ident_eqb_iff a b : ident_eqb a b = true <-> norm a = norm b.
Proof.
  destruct a as [x|x|x], b as [y|y|y]; cbn [ident_eqb norm]; try (split; discriminate).
  - rewrite Z.eqb_eq. split; congruence.
  - rewrite Z.eqb_eq. split; congruence.
  - rewrite Z.eqb_eq. split; congruence.
  - destruct x, y; cbn; split; congruence.
  - destruct (str_eqb_spec x y); split; congruence.
Qed.
Lemma ident_eqb_trans a b c : ident_eqb a b = true -> ident_eqb b c = true -> ident_eqb a c = true.
Proof. rewrite !ident_eqb_iff. congruence. Qed.

(** a number for every resource: the place of the first equal one in [all] *)
Fixpoint place (all : list resource) (x : resource) : nat :=
  match all with [] => 0 | y :: rest => if resource_eqb y x then 0 else S (place rest x) end.
Lemma place_same all x y : res_mem x all = true -> (place all x = place all y <-> resource_eqb x y = true).
Proof.
  unfold resource_eqb. induction all as [|z all IH]; cbn [place res_mem existsb]; [discriminate|]. intros H.
  assert (T : forall a b c, resource_eqb a b = true -> resource_eqb a c = resource_eqb b c).
  { intros a b c HH. unfold resource_eqb in *. destruct (ident_eqb (identifier b) (identifier c)) eqn:B.
    - now apply (ident_eqb_trans _ (identifier b)).
    - destruct (ident_eqb (identifier a) (identifier c)) eqn:A; [|reflexivity]. rewrite ident_eqb_sym in HH. rewrite (ident_eqb_trans _ _ _ HH A) in B. discriminate. }
  destruct (resource_eqb z x) eqn:ZX.
  - pose proof (T _ _ y ZX) as X. unfold resource_eqb in X |- *. rewrite X. destruct (ident_eqb (identifier x) (identifier y)); split; congruence.
  - assert (XZ : resource_eqb x z = false) by (unfold resource_eqb in *; rewrite ident_eqb_sym; exact ZX). rewrite XZ in H. cbn [orb] in H.
    destruct (resource_eqb z y) eqn:ZY.
    + split; [discriminate|]. intros XY. exfalso. assert (Y : resource_eqb y z = true) by (unfold resource_eqb in *; rewrite ident_eqb_sym; exact ZY).
      pose proof (T x y z XY). congruence.
    + rewrite <- (IH H). split; [intros X; now injection X|congruence].
Qed.
Lemma mem_of_In x l : In x l -> res_mem x l = true.
Proof. intros H. apply existsb_exists. exists x. split; [exact H|apply ident_eqb_refl]. Qed.

(** the sets of the scheduler are the lists of numbers of SchedModel, as sets *)
Section Numbered.
Variable all : list resource.
Notation num := (place all).
Definition same_set (s : list resource) (l : list nat) : Prop := incl s all /\ forall k, In k l <-> exists x, In x s /\ num x = k.
Lemma mem_num x s : In x all -> incl s all -> res_mem x s = true <-> In (num x) (map num s).
Proof.
  intros Hx Hs. unfold res_mem. rewrite existsb_exists, in_map_iff. split; intros (y & H1 & H2).
  - exists y. split; [symmetry; apply place_same; [now apply mem_of_In|exact H2]|exact H1].
  - exists y. split; [exact H2|]. apply (place_same all); [now apply mem_of_In|congruence].
Qed.
Lemma set_add_num s l x : In x all -> same_set s l -> same_set (set_add s x) (l ++ [num x]).
Proof.
  intros Hx [Hs H]. unfold set_add. destruct (res_mem x s) eqn:M.
  - split; [exact Hs|]. intros k. rewrite in_app_iff. cbn [In]. split.
    + intros [X|[<-|[]]]; [now apply H|]. apply (mem_num x s Hx Hs), in_map_iff in M as (y & E & Hy). eauto.
    + intros X. left. now apply H.
  - split; [intros y Hy; apply in_app_iff in Hy as [Hy|[<-|[]]]; auto|]. intros k. rewrite in_app_iff. cbn [In]. split.
    + intros [X|[<-|[]]]; [apply H in X as (y & Hy & E); exists y; split; [apply in_or_app; now left|exact E]|exists x; split; [apply in_or_app; right; now left|reflexivity]].
    + intros (y & Hy & E). apply in_app_iff in Hy as [Hy|[<-|[]]]; [left; apply H; eauto|now right; left].
Qed.
Lemma set_union_num t : forall s l, incl t all -> same_set s l -> same_set (set_union s t) (l ++ map num t).
Proof.
  induction t as [|x t IH]; intros s l Ht H; cbn [set_union fold_left map]; [now rewrite app_nil_r|].
  change (l ++ num x :: map num t) with (l ++ [num x] ++ map num t). rewrite app_assoc. apply IH; [intros y Hy; apply Ht; now right|]. apply set_add_num; [apply Ht; now left|exact H].
Qed.
Lemma set_minus_num s t l m : same_set s l -> same_set t m -> same_set (set_minus s t) (minus_res l m).
Proof.
  intros [Hs H] [Ht M]. unfold set_minus, minus_res. split; [intros x Hx; apply filter_In in Hx as [Hx _]; auto|].
  assert (MEM : forall x, In x s -> res_mem x t = nat_mem (num x) m).
  { intros x Hx. destruct (nat_mem (num x) m) eqn:N.
    - apply (mem_num x t (Hs x Hx) Ht). unfold nat_mem in N. apply existsb_exists in N as (k & Hk & E). apply Nat.eqb_eq in E. rewrite E. apply in_map_iff. apply M in Hk as (y & Hy & E2). exists y. auto.
    - destruct (res_mem x t) eqn:R; [|reflexivity]. apply (mem_num x t (Hs x Hx) Ht), in_map_iff in R as (y & E & Hy).
      assert (X : In (num x) m) by (apply M; eauto). unfold nat_mem in N. assert (Y : existsb (Nat.eqb (num x)) m = true) by (apply existsb_exists; exists (num x); split; [exact X|apply Nat.eqb_refl]). congruence. }
  intros k. rewrite filter_In. split.
  - intros [X N]. apply H in X as (x & Hx & <-). exists x. split; [|reflexivity]. apply filter_In. rewrite MEM; auto.
  - intros (x & Hx & <-). apply filter_In in Hx as [Hx N]. rewrite MEM in N by exact Hx. split; [apply H; eauto|exact N].
Qed.
Lemma set_meets_num s t l m : same_set s l -> same_set t m -> set_meets s t = negb (disjointb l m).
Proof.
  intros [Hs H] [Ht M]. unfold disjointb. rewrite negb_involutive. unfold set_meets.
  assert (A : Nat.ltb 0 (length (filter (fun x => res_mem x t) s)) = true <-> existsb (fun x => nat_mem x m) l = true).
  { rewrite existsb_exists, Nat.ltb_lt. split.
    - intros L. destruct (filter _ s) as [|x r] eqn:F; [cbn in L; lia|]. assert (X : In x (filter (fun x => res_mem x t) s)) by (rewrite F; now left).
      apply filter_In in X as [X R]. apply (mem_num x t (Hs x X) Ht), in_map_iff in R as (y & E & Hy). exists (num x). split; [apply H; eauto|].
      apply existsb_exists. exists (num x). split; [apply M; eauto|apply Nat.eqb_refl].
    - intros (k & Hk & N). apply existsb_exists in N as (k2 & Hk2 & E). apply Nat.eqb_eq in E. subst k2. apply H in Hk as (x & Hx & <-). apply M in Hk2 as (y & Hy & E).
      assert (X : In x (filter (fun x => res_mem x t) s)). { apply filter_In. split; [exact Hx|]. apply (mem_num x t (Hs x Hx) Ht), in_map_iff. eauto. }
      destruct (filter _ s); [destruct X|cbn [length]; lia]. }
  destruct (Nat.ltb _ _), (existsb _ _); try reflexivity; [now rewrite (proj1 A)|now rewrite (proj2 A)].
Qed.
End Numbered.

(** C138. Two resources are the same for the scheduler exactly if their identifiers are equal in python; so two ports are the
    same exactly if they have the same number, and a port is never the same as a resource that is named with a number. *)
Theorem C138_resources :
  (forall a b, resource_eqb a b = true <-> ident_eqb (identifier a) (identifier b) = true) /\
  (forall v w, resource_eqb (new_resource v None) (new_resource w None) = ident_eqb v w) /\
  (forall a, resource_eqb a a = true) /\ (forall a b, resource_eqb a b = resource_eqb b a) /\
  (forall a b c, resource_eqb a b = true -> resource_eqb b c = true -> resource_eqb a c = true) /\
  forall show_int, (forall x y : Z, show_int x = show_int y -> x = y) ->
  (forall p q, resource_eqb (port show_int p) (port show_int q) = Z.eqb p q) /\
  (forall p v i z, i = IInt z \/ (exists b, i = IBool b) -> resource_eqb (port show_int p) (new_resource v (Some i)) = false) /\
  (forall p z, resource_eqb (port show_int p) (new_resource (IInt z) None) = false) /\
  (forall p, value (port show_int p) = IInt p).
Proof.
  split; [reflexivity|]. split; [reflexivity|]. split; [intros a; apply ident_eqb_refl|]. split; [intros a b; apply ident_eqb_sym|]. split; [intros a b c; apply ident_eqb_trans|].
  intros show_int INJ. split; [|split; [|split]].
  - intros p q. unfold resource_eqb, port, new_resource. cbn [identifier ident_eqb]. destruct (Z.eqb_spec p q) as [->|N]; [apply str_eqb_refl|].
    apply str_eqb_neq. intros X. apply app_inv_head in X. auto.
  - intros p v i z [->|[b ->]]; reflexivity.
  - reflexivity.
  - reflexivity.
Qed.
Print Assumptions C138_resources.

(** The scheduler of C34 with the resources of the tests: two tests that run at the same time have no resource in common.
    SchedModel has numbers for resources; here they are any numbers that are equal for equal resources. *)
Theorem C138_exclusive :
  forall todo deps (res : str -> list resource) num dur leaves tr s a b,
  (forall x y, resource_eqb x y = true -> num x = num y) ->
  run todo deps (fun n => map num (res n)) dur leaves tr s ->
  running tr a -> running tr b -> a <> b -> forall x y, In x (res a) -> In y (res b) -> resource_eqb x y = false.
Proof.
  intros todo deps res num dur leaves tr s a b NUM R RA RB N x y Hx Hy. destruct (resource_eqb x y) eqn:E; [exfalso|reflexivity].
  refine (C34_exclusive_resources _ _ _ _ _ _ _ a b (num x) R RA RB N _ _); apply in_map_iff; [exists x|exists y]; auto. split; [|exact Hy]. symmetry. now apply NUM.
Qed.
Print Assumptions C138_exclusive.

(** Such numbers exist, and with them the python sets of the scheduler go on exactly like the lists of SchedModel: starting from
    equal sets, |=, -= and the test of & give equal sets and the same answer. *)
Theorem C138_sets : forall all,
  (forall x y, In x all -> (place all x = place all y <-> resource_eqb x y = true)) /\
  same_set all [] [] /\
  (forall r, incl r all -> same_set all (set_of r) (map (place all) r)) /\
  (forall s t l m, same_set all s l -> same_set all t m ->
     same_set all (set_union s t) (l ++ m) /\ same_set all (set_minus s t) (minus_res l m) /\ set_meets s t = negb (disjointb l m)).
Proof.
  intros all. split; [intros x y Hx; apply place_same; now apply mem_of_In|]. assert (E0 : same_set all [] []).
  { split; [intros x []|]. intros k. split; [intros []|intros (x & [] & _)]. }
  split; [exact E0|]. split; [intros r Hr; exact (set_union_num all r [] [] Hr E0)|]. intros s t l m HS HT. split; [|split].
  - destruct (set_union_num all t s l (proj1 HT) HS) as [U1 U2]. split; [exact U1|]. intros k. rewrite <- U2, !in_app_iff. destruct HT as [_ HT]. rewrite HT, in_map_iff. 
    split; (intros [X|(x & A & B)]; [now left|right; exists x; auto]).
  - now apply (set_minus_num all).
  - now apply (set_meets_num all).
Qed.
Print Assumptions C138_sets.

(** two tests with the port 80, one with a resource named 80; a text can be named like a port *)
Example C138_ex :
  let p := port (fun z => if Z.eqb z 80 then lit "80" else lit "x") 80 in
  set_of [p; new_resource (IInt 80) None; p] = [p; new_resource (IInt 80) None] /\
  set_meets [p] [new_resource (IInt 80) None] = false /\ set_meets [p] [new_resource (IStr (lit "port=80")) None] = true /\
  resource_eqb (new_resource (IBool true) None) (new_resource (IInt 1) None) = true /\
  set_minus [p; new_resource (IInt 80) None] [p] = [new_resource (IInt 80) None].
Proof. vm_compute. repeat split. Qed.
