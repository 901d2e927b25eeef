(** UTF-8 and base64 lose nothing. *)
From Verif Require Import PyStrFacts BytesModel.
From Coq Require Import Lia ZifyN ZArith.
Ltac Zify.zify_post_hook ::= Z.div_mod_to_equations.

Lemma within_spec lo hi n : within lo hi n = true <-> (lo <= n <= hi)%N.
Proof. unfold within. rewrite andb_true_iff, !N.leb_le. reflexivity. Qed.

(** a Unicode scalar value *)
Definition scalar (c : char) : Prop := (c < 55296 \/ 57344 <= c < 1114112)%N.

Lemma utf8_char_scalar c : utf8_char c <> None <-> scalar c.
Proof.
  unfold utf8_char, scalar.
  destruct (N.ltb_spec c 128); [split; [lia|discriminate]|]. destruct (N.ltb_spec c 2048); [split; [lia|discriminate]|].
  destruct (N.leb_spec 55296 c), (N.leb_spec c 57343); cbn [andb]; try (split; [congruence|lia]);
    (destruct (N.ltb_spec c 65536); [split; [lia|discriminate]|]; destruct (N.ltb_spec c 1114112); [split; [lia|discriminate]|split; [congruence|lia]]).
Qed.

Ltac tests := repeat match goal with
  | |- context [N.ltb ?a ?b] => let H := fresh in destruct (N.ltb_spec a b) as [H|H]; [try (exfalso; lia)|try (exfalso; lia)]
  | |- context [N.eqb ?a ?b] => let H := fresh in destruct (N.eqb_spec a b) as [H|H]; [try (exfalso; lia)|try (exfalso; lia)]
  | |- context [within ?a ?b ?c] => let H := fresh in destruct (within a b c) eqn:H; [apply within_spec in H; try (exfalso; lia)|
      try (exfalso; apply not_true_iff_false in H; apply H; apply within_spec; lia)]
  end.
(** the parts of a number *)
Lemma parts2 c : exists p r, (c = p * 64 + r /\ r < 64 /\ c / 64 = p /\ c mod 64 = r)%N.
Proof. exists (c / 64)%N, (c mod 64)%N. repeat split; lia. Qed.
Lemma parts3 c : exists p q r, (c = p * 4096 + q * 64 + r /\ q < 64 /\ r < 64 /\ c / 4096 = p /\ c / 64 mod 64 = q /\ c mod 64 = r)%N.
Proof. exists (c / 4096)%N, (c / 64 mod 64)%N, (c mod 64)%N. repeat split; lia. Qed.
Lemma parts4 c : exists o p q r, (c = o * 262144 + p * 4096 + q * 64 + r /\ p < 64 /\ q < 64 /\ r < 64 /\
  c / 262144 = o /\ c / 4096 mod 64 = p /\ c / 64 mod 64 = q /\ c mod 64 = r)%N.
Proof. exists (c / 262144)%N, (c / 4096 mod 64)%N, (c / 64 mod 64)%N, (c mod 64)%N. repeat split; lia. Qed.
Lemma within_yes lo hi n : (lo <= n <= hi)%N -> within lo hi n = true.
Proof. apply within_spec. Qed.
Lemma within_no lo hi n : (n < lo \/ hi < n)%N -> within lo hi n = false.
Proof. intros H. apply not_true_iff_false. rewrite within_spec. lia. Qed.
Lemma some_inv {A} (x y : A) : Some x = Some y -> x = y.
Proof. now intros [=]. Qed.
Lemma decode_char c a r : utf8_char c = Some a -> utf8_decode (a ++ r) = cons_to c (utf8_decode r).
Proof.
  unfold utf8_char.
  destruct (N.ltb_spec c 128) as [L|L]; [intros EA; apply some_inv in EA; subst a; cbn [app utf8_decode]; apply N.ltb_lt in L; now rewrite L|].
  destruct (N.ltb_spec c 2048) as [L1|L1].
  { destruct (parts2 c) as (p & m & EC & LM & E1 & E2). rewrite E1, E2. clear E1 E2. intros EA. apply some_inv in EA. subst a. cbn [app utf8_decode].
    rewrite (proj2 (N.ltb_ge _ _)), (within_yes 194 223), (within_yes 128 191) by lia. f_equal. lia. }
  destruct ((55296 <=? c) && (c <=? 57343))%N eqn:S; [discriminate|].
  assert (SC : (c < 55296 \/ 57344 <= c)%N) by (apply andb_false_iff in S; rewrite !N.leb_gt in S; lia). clear S.
  destruct (N.ltb_spec c 65536) as [L2|L2].
  { destruct (parts3 c) as (p & q & m & EC & LQ & LM & E1 & E2 & E3). rewrite E1, E2, E3. clear E1 E2 E3. intros EA. apply some_inv in EA. subst a. cbn [app utf8_decode].
    rewrite (proj2 (N.ltb_ge _ _)), (within_no 194 223), (within_yes 224 239) by lia.
    rewrite (within_yes _ _ (128 + q)%N), (within_yes _ _ (128 + m)%N) by (destruct (N.eqb_spec (224 + p) 224), (N.eqb_spec (224 + p) 237); lia).
    cbn [andb]. f_equal. lia. }
  destruct (N.ltb_spec c 1114112) as [L3|L3]; [|discriminate].
  destruct (parts4 c) as (o & p & q & m & EC & LP & LQ & LM & E1 & E2 & E3 & E4). rewrite E1, E2, E3, E4. clear E1 E2 E3 E4. intros EA. apply some_inv in EA. subst a. cbn [app utf8_decode].
  rewrite (proj2 (N.ltb_ge _ _)), (within_no 194 223), (within_no 224 239), (within_yes 240 244) by lia.
  rewrite (within_yes _ _ (128 + p)%N), (within_yes _ _ (128 + q)%N), (within_yes _ _ (128 + m)%N) by (destruct (N.eqb_spec (240 + o) 240), (N.eqb_spec (240 + o) 244); lia).
  cbn [andb]. f_equal. lia.
Qed.
Theorem decode_encode s b : utf8_encode s = Some b -> utf8_decode b = Some s.
Proof.
  revert b. induction s as [|c s IH]; intros b E; cbn [utf8_encode] in E; [now injection E as <-|].
  destruct (utf8_char c) as [a|] eqn:EC; [|discriminate]. destruct (utf8_encode s) as [r|]; [|discriminate]. injection E as <-.
  rewrite (decode_char c a r EC), (IH r eq_refl). reflexivity.
Qed.

Lemma encode_cons c s : utf8_encode (c :: s) = match utf8_char c, utf8_encode s with Some a, Some b => Some (a ++ b) | _, _ => None end.
Proof. reflexivity. Qed.
Lemma cons_to_inv c o d s : cons_to c o = Some (d :: s) -> d = c /\ o = Some s.
Proof. destruct o as [t|]; [|discriminate]. cbn [cons_to]. intros E. apply some_inv in E. injection E as -> ->. now split. Qed.
Lemma char2 c p m : (128 <= c < 2048)%N -> c = (p * 64 + m)%N -> (m < 64)%N -> utf8_char c = Some [192 + p; 128 + m]%N.
Proof.
  intros L E LM. unfold utf8_char. rewrite (proj2 (N.ltb_ge c 128)), (proj2 (N.ltb_lt c 2048)) by lia.
  destruct (parts2 c) as (p' & m' & EC & LM' & E1 & E2). rewrite E1, E2. assert (p = p' /\ m = m') as [-> ->] by lia. reflexivity.
Qed.
Lemma char3 c p q m : (2048 <= c < 65536)%N -> (c < 55296 \/ 57344 <= c)%N -> c = (p * 4096 + q * 64 + m)%N -> (q < 64)%N -> (m < 64)%N ->
  utf8_char c = Some [224 + p; 128 + q; 128 + m]%N.
Proof.
  intros L SC E LQ LM. unfold utf8_char. rewrite (proj2 (N.ltb_ge c 128)), (proj2 (N.ltb_ge c 2048)), (proj2 (N.ltb_lt c 65536)) by lia.
  destruct ((55296 <=? c) && (c <=? 57343))%N eqn:S; [exfalso; apply andb_true_iff in S; rewrite !N.leb_le in S; lia|].
  destruct (parts3 c) as (p' & q' & m' & EC & LQ' & LM' & E1 & E2 & E3). rewrite E1, E2, E3. assert (p = p' /\ q = q' /\ m = m') as (-> & -> & ->) by lia. reflexivity.
Qed.
Lemma char4 c o p q m : (65536 <= c < 1114112)%N -> c = (o * 262144 + p * 4096 + q * 64 + m)%N -> (p < 64)%N -> (q < 64)%N -> (m < 64)%N ->
  utf8_char c = Some [240 + o; 128 + p; 128 + q; 128 + m]%N.
Proof.
  intros L E LP LQ LM. unfold utf8_char. rewrite (proj2 (N.ltb_ge c 128)), (proj2 (N.ltb_ge c 2048)), (proj2 (N.ltb_ge c 65536)), (proj2 (N.ltb_lt c 1114112)) by lia.
  destruct ((55296 <=? c) && (c <=? 57343))%N eqn:S; [exfalso; apply andb_true_iff in S; rewrite !N.leb_le in S; lia|].
  destruct (parts4 c) as (o' & p' & q' & m' & EC & LP' & LQ' & LM' & E1 & E2 & E3 & E4). rewrite E1, E2, E3, E4. assert (o = o' /\ p = p' /\ q = q' /\ m = m') as (-> & -> & -> & ->) by lia. reflexivity.
Qed.
Lemma plus_back k n : (k <= n)%N -> (k + (n - k) = n)%N.
Proof. lia. Qed.
Theorem encode_decode s : forall b, utf8_decode b = Some s -> utf8_encode s = Some b.
Proof.
  induction s as [|c s IH]; intros [|a b] E; [reflexivity| |discriminate|].
  - exfalso. cbn [utf8_decode] in E.
    repeat (match type of E with context [if ?x then _ else _] => destruct x | context [match ?x with [] => _ | _ => _ end] => destruct x | cons_to ?c ?o = _ => destruct o end; try discriminate).
  - cbn [utf8_decode] in E. destruct (N.ltb_spec a 128) as [L|L].
    { apply cons_to_inv in E. destruct E as [EC E2]. rewrite encode_cons, (IH _ E2), EC. unfold utf8_char. apply N.ltb_lt in L. now rewrite L. }
    destruct (within 194 223 a) eqn:W1; [apply within_spec in W1|clear W1].
    { destruct b as [|x b]; [discriminate|]. destruct (within 128 191 x) eqn:WX; [apply within_spec in WX|discriminate].
      apply cons_to_inv in E. destruct E as [EC E2]. rewrite encode_cons, (IH _ E2), (char2 c (a - 192) (x - 128)), !plus_back by lia. reflexivity. }
    destruct (within 224 239 a) eqn:W1; [apply within_spec in W1|clear W1].
    { destruct b as [|x [|y b]]; try discriminate. destruct (within _ _ x) eqn:WX in E; [apply within_spec in WX|discriminate].
      destruct (within 128 191 y) eqn:WY in E; [apply within_spec in WY|discriminate]. cbn [andb] in E.
      apply cons_to_inv in E. destruct E as [EC E2].
      rewrite encode_cons, (IH _ E2), (char3 c (a - 224) (x - 128) (y - 128)), !plus_back by (destruct (N.eqb_spec a 224), (N.eqb_spec a 237); lia). reflexivity. }
    destruct (within 240 244 a) eqn:W1; [apply within_spec in W1|discriminate].
    destruct b as [|x [|y [|z b]]]; try discriminate. destruct (within _ _ x) eqn:WX in E; [apply within_spec in WX|discriminate].
    destruct (within 128 191 y) eqn:WY in E; [apply within_spec in WY|discriminate].
    destruct (within 128 191 z) eqn:WZ in E; [apply within_spec in WZ|discriminate]. cbn [andb] in E.
    apply cons_to_inv in E. destruct E as [EC E2].
    rewrite encode_cons, (IH _ E2), (char4 c (a - 240) (x - 128) (y - 128) (z - 128)), !plus_back by (destruct (N.eqb_spec a 240), (N.eqb_spec a 244); lia). reflexivity.
Qed.

Theorem decode_scalar s : forall b, utf8_decode b = Some s -> Forall scalar s.
Proof.
  intros b E. apply encode_decode in E. revert b E. induction s as [|c s IH]; intros b E; [constructor|]. rewrite encode_cons in E.
  destruct (utf8_char c) as [a|] eqn:EC; [|discriminate]. destruct (utf8_encode s) as [r|]; [|discriminate]. constructor; [|eapply IH; reflexivity].
  apply utf8_char_scalar. congruence.
Qed.
Theorem encode_scalar s : Forall scalar s -> exists b, utf8_encode s = Some b.
Proof.
  induction 1 as [|c s H _ [b IH]]; [eexists; reflexivity|]. rewrite encode_cons, IH. apply utf8_char_scalar in H.
  destruct (utf8_char c); [eauto|congruence].
Qed.
Theorem encode_bytes s b : utf8_encode s = Some b -> Forall is_byte b.
Proof.
  revert b. induction s as [|c s IH]; intros b E; [injection E as <-; constructor|]. rewrite encode_cons in E.
  destruct (utf8_char c) as [a|] eqn:EC; [|discriminate]. destruct (utf8_encode s) as [r|]; [|discriminate]. injection E as <-.
  apply Forall_app. split; [|now apply IH]. unfold utf8_char in EC. unfold is_byte.
  destruct (N.ltb_spec c 128); [apply some_inv in EC; subst a; repeat (apply Forall_cons; [lia|]); apply Forall_nil|]. destruct (N.ltb_spec c 2048); [apply some_inv in EC; subst a; repeat (apply Forall_cons; [lia|]); apply Forall_nil|].
  destruct ((55296 <=? c) && (c <=? 57343))%N; [discriminate|]. destruct (N.ltb_spec c 65536); [apply some_inv in EC; subst a; repeat (apply Forall_cons; [lia|]); apply Forall_nil|].
  destruct (N.ltb_spec c 1114112); [apply some_inv in EC; subst a; repeat (apply Forall_cons; [lia|]); apply Forall_nil|discriminate].
Qed.

(** ** base64 *)
Lemma b64_value_char n : (n < 64)%N -> b64_value (b64_char n) = Some n /\ b64_char n <> PAD /\ (b64_char n < 128)%N.
Proof.
  intros L. unfold b64_char, b64_value, PAD.
  destruct (N.ltb_spec n 26); [tests; repeat split; try lia; f_equal; lia|].
  destruct (N.ltb_spec n 52); [tests; repeat split; try lia; f_equal; lia|].
  destruct (N.ltb_spec n 62); [tests; repeat split; try lia; f_equal; lia|].
  destruct (N.eqb_spec n 62); [subst; vm_compute; repeat split; discriminate|]. assert (n = 63)%N by lia. subst. vm_compute. repeat split; discriminate.
Qed.
Lemma a2b_char quad left pads n r : (n < 64)%N -> a2b quad left pads (b64_char n :: r) =
  match quad with
  | 0 => a2b 1 n 0 r
  | 1 => byte_to (left * 4 + n / 16)%N (a2b 2 (n mod 16)%N 0 r)
  | 2 => byte_to (left * 16 + n / 4)%N (a2b 3 (n mod 4)%N 0 r)
  | _ => byte_to (left * 64 + n)%N (a2b 0 0%N 0 r)
  end.
Proof.
  intros L. destruct (b64_value_char n L) as (V & P & _). cbn [a2b]. apply N.eqb_neq in P. rewrite P, V. reflexivity.
Qed.
Section ThreeInd.
  Variable P : list N -> Prop.
  Hypothesis H0 : P [].
  Hypothesis H1 : forall x, P [x].
  Hypothesis H2 : forall x y, P [x; y].
  Hypothesis H3 : forall x y z r, P r -> P (x :: y :: z :: r).
  Fixpoint three_ind (b : list N) : P b :=
    match b with
    | [] => H0 | [x] => H1 x | [x; y] => H2 x y
    | x :: y :: z :: r => H3 x y z r (three_ind r)
    end.
End ThreeInd.
Lemma b64_ascii b : Forall is_byte b -> forallb (fun c => c <? 128)%N (b64encode b) = true.
Proof.
  assert (A : forall n, (n < 64)%N -> (b64_char n <? 128)%N = true) by (intros n L; apply N.ltb_lt; now apply b64_value_char).
  unfold is_byte. induction b as [|x|x y|x y z r IH] using three_ind; intros F.
  - reflexivity.
  - apply Forall_inv in F. cbn [b64encode forallb]. now rewrite !A by lia.
  - apply Forall_cons_iff in F. destruct F as [X F]. apply Forall_inv in F. cbn beta in X, F. cbn [b64encode forallb]. now rewrite !A by lia.
  - rewrite !Forall_cons_iff in F. destruct F as (X & Y & Z & F). cbn beta in X, Y, Z.
    cbn [b64encode forallb]. rewrite !A by lia. cbn [andb]. now apply IH.
Qed.
Theorem b64_decode_encode b : Forall is_byte b -> b64decode (b64encode b) = Some b.
Proof.
  intros F. unfold b64decode. rewrite (b64_ascii b F). revert F. unfold is_byte.
  induction b as [|x|x y|x y z r IH] using three_ind; intros F.
  - reflexivity.
  - apply Forall_inv in F. cbn [b64encode]. rewrite a2b_char by lia. rewrite a2b_char by lia. cbn. f_equal. f_equal. lia.
  - apply Forall_cons_iff in F. destruct F as [X F]. apply Forall_inv in F. cbn beta in X, F. cbn [b64encode]. rewrite !a2b_char by lia.
    cbn [a2b]. change (PAD =? PAD)%N with true. cbn [Nat.leb Nat.add byte_to]. f_equal. f_equal; [lia|]. f_equal. lia.
  - rewrite !Forall_cons_iff in F. destruct F as (X & Y & Z & F). cbn beta in X, Y, Z.
    cbn [b64encode]. rewrite a2b_char by lia. rewrite a2b_char by lia. rewrite a2b_char by lia. rewrite a2b_char by lia. rewrite (IH F). cbn [byte_to]. f_equal. f_equal; [lia|]. f_equal; [lia|]. f_equal. lia.
Qed.
Lemma b64_inj a b : Forall is_byte a -> Forall is_byte b -> b64encode a = b64encode b -> a = b.
Proof. intros A B E. apply b64_decode_encode in A, B. rewrite E, B in A. now injection A. Qed.
Lemma b64_chars b : Forall is_byte b -> Forall (fun c => (c < 128)%N) (b64encode b).
Proof. intros F. apply b64_ascii in F. rewrite forallb_forall in F. apply Forall_forall. intros c I. apply N.ltb_lt. now apply F. Qed.
