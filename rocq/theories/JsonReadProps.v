(** C146: which texts json.load reads, and as what: the grammar of JSON with the extensions of Python, stated without the constants
    and functions of the model (python's json/decoder.py and json/scanner.py, called in functions.py, env.py, requests.py, httpx.py). *)
From Verif Require Import PyStrFacts JsonModel JsonFacts JsonProofs.
From Coq Require Import Lia Permutation.

(** ** The grammar *)
Definition hex_table : list (char * N) := combine (lit "0123456789abcdefABCDEF") [0; 1; 2; 3; 4; 5; 6; 7; 8; 9; 10; 11; 12; 13; 14; 15; 10; 11; 12; 13; 14; 15]%N.
Definition hex_number (t : str) (n : N) : Prop :=
  exists a b c d x y z w, t = [a; b; c; d] /\ In (a, x) hex_table /\ In (b, y) hex_table /\ In (c, z) hex_table /\ In (d, w) hex_table /\
    n = (((x * 16 + y) * 16 + z) * 16 + w)%N.
Definition escapes : list (char * char) := combine (lit """\/bfnrt") [34; 92; 47; 8; 12; 10; 13; 9]%N.
Definition high (n : N) : Prop := (55296 <= n < 56320)%N.
Definition low (n : N) : Prop := (56320 <= n < 57344)%N.
(** [in_quotes s t]: [s] between quotes stands for the text [t] *)
Inductive in_quotes : str -> str -> Prop :=
| iq_end : in_quotes [] []
| iq_self c s t : (32 <= c)%N -> c <> 34%N -> c <> 92%N -> in_quotes s t -> in_quotes (c :: s) (c :: t)
| iq_escape e x s t : In (e, x) escapes -> in_quotes s t -> in_quotes (92%N :: e :: s) (x :: t)
| iq_code h n s t : hex_number h n -> (high n -> forall h' m r, s = lit "\u" ++ h' ++ r -> hex_number h' m -> ~ low m) ->
    in_quotes s t -> in_quotes (lit "\u" ++ h ++ s) (n :: t)
| iq_pair h n h' m s t : hex_number h n -> high n -> hex_number h' m -> low m ->
    in_quotes s t -> in_quotes (lit "\u" ++ h ++ lit "\u" ++ h' ++ s) ((65536 + (n - 55296) * 1024 + (m - 56320))%N :: t).

Definition decimal_digit (c : char) : Prop := (48 <= c <= 57)%N.
Definition some_digits (d : str) : Prop := d <> [] /\ Forall decimal_digit d.
Definition int_digits (i : str) : Prop := some_digits i /\ (i = lit "0" \/ hd 0%N i <> 48%N).
Definition decimal_value (i : str) : N := fold_left (fun a c => a * 10 + (c - 48))%N i 0%N.
Definition fraction (f : str) : Prop := f = [] \/ exists d, f = lit "." ++ d /\ some_digits d.
Definition exponent (e : str) : Prop :=
  e = [] \/ exists c g d, e = c :: g ++ d /\ In c (lit "eE") /\ In g [[]; lit "+"; lit "-"] /\ some_digits d.
Definition blank (w : str) : Prop := Forall (fun c => In c [32; 9; 10; 13]%N) w.

Section Grammar.
Variable refloat : str -> str.                 (* the float that a text of a number stands for *)
Variable object : list (str * jv) -> jv.       (* what an object with these members is *)
Inductive number : str -> jv -> Prop :=
| nu_int i : int_digits i -> number i (JInt (Z.of_N (decimal_value i)))
| nu_neg i : int_digits i -> number (lit "-" ++ i) (JInt (- Z.of_N (decimal_value i)))
| nu_float m i f e : In m [[]; lit "-"] -> int_digits i -> fraction f -> exponent e -> f ++ e <> [] -> number (m ++ i ++ f ++ e) (JFloat (refloat (m ++ i ++ f ++ e))).
Inductive json : str -> jv -> Prop :=
| js_null : json (lit "null") JNone
| js_true : json (lit "true") (JBool true)
| js_false : json (lit "false") (JBool false)
| js_nan : json (lit "NaN") (JFloat (lit "nan"))
| js_inf : json (lit "Infinity") (JFloat (lit "inf"))
| js_neg_inf : json (lit "-Infinity") (JFloat (lit "-inf"))
| js_number s v : number s v -> json s v
| js_text s t : in_quotes s t -> json (lit """" ++ s ++ lit """") (JStr t)
| js_no_items w : blank w -> json (lit "[" ++ w ++ lit "]") (JList [])
| js_list s l : items s l -> json (lit "[" ++ s ++ lit "]") (JList l)
| js_no_members w : blank w -> json (lit "{" ++ w ++ lit "}") (object [])
| js_object s l : members s l -> json (lit "{" ++ s ++ lit "}") (object l)
with items : str -> list jv -> Prop :=
| it_last w s v w' : blank w -> json s v -> blank w' -> items (w ++ s ++ w') [v]
| it_more w s v w' r l : blank w -> json s v -> blank w' -> items r l -> items (w ++ s ++ w' ++ lit "," ++ r) (v :: l)
with members : str -> list (str * jv) -> Prop :=
| me_last w k t w1 w2 s v w3 : blank w -> in_quotes k t -> blank w1 -> blank w2 -> json s v -> blank w3 ->
    members (w ++ lit """" ++ k ++ lit """" ++ w1 ++ lit ":" ++ w2 ++ s ++ w3) [(t, v)]
| me_more w k t w1 w2 s v w3 r l : blank w -> in_quotes k t -> blank w1 -> blank w2 -> json s v -> blank w3 -> members r l ->
    members (w ++ lit """" ++ k ++ lit """" ++ w1 ++ lit ":" ++ w2 ++ s ++ w3 ++ lit "," ++ r) ((t, v) :: l).
Definition document (s : str) (v : jv) : Prop := exists w t w', s = w ++ t ++ w' /\ blank w /\ json t v /\ blank w'.
End Grammar.
Scheme json_min := Minimality for json Sort Prop with items_min := Minimality for items Sort Prop with members_min := Minimality for members Sort Prop.
Combined Scheme grammar_min from json_min, items_min, members_min.

(** ** Texts *)
Lemma hex_value_iff c n : hex_value c = Some n <-> In (c, n) hex_table.
Proof.
  unfold hex_value, is_digit. split.
  - intros H.
    destruct ((48 <=? c) && (c <=? 57))%N eqn:A; [|destruct ((97 <=? c) && (c <=? 102))%N eqn:B; [|destruct ((65 <=? c) && (c <=? 70))%N eqn:C; [|discriminate]]].
    + apply andb_true_iff in A as [A1 A2]. apply N.leb_le in A1, A2. assert (E : n = (c - 48)%N) by congruence. clear H. rewrite E.
      assert (X : (c = 48 \/ c = 49 \/ c = 50 \/ c = 51 \/ c = 52 \/ c = 53 \/ c = 54 \/ c = 55 \/ c = 56 \/ c = 57)%N) by lia.
      repeat destruct X as [->|X]; try (subst c); cbv; tauto.
    + apply andb_true_iff in B as [A1 A2]. apply N.leb_le in A1, A2. assert (E : n = (c - 87)%N) by congruence. clear H. rewrite E.
      assert (X : (c = 97 \/ c = 98 \/ c = 99 \/ c = 100 \/ c = 101 \/ c = 102)%N) by lia.
      repeat destruct X as [->|X]; try (subst c); cbv; tauto.
    + apply andb_true_iff in C as [A1 A2]. apply N.leb_le in A1, A2. assert (E : n = (c - 55)%N) by congruence. clear H. rewrite E.
      assert (X : (c = 65 \/ c = 66 \/ c = 67 \/ c = 68 \/ c = 69 \/ c = 70)%N) by lia.
      repeat destruct X as [->|X]; try (subst c); cbv; tauto.
  - intros H. cbv [hex_table combine lit] in H. repeat (destruct H as [H|H]; [assert (X := f_equal fst H); assert (Y := f_equal snd H); cbn [fst snd] in X, Y; subst c n; reflexivity|]). destruct H.
Qed.
Lemma hex_number_length h n : hex_number h n -> length h = 4.
Proof. intros (a & b & c & d & x & y & z & w & -> & _). reflexivity. Qed.
Lemma read_hex4_some s n r : read_hex4 s = Some (n, r) <-> exists h, s = h ++ r /\ hex_number h n.
Proof.
  split.
  - intros H. unfold read_hex4 in H. destruct s as [|a [|b [|c [|d q]]]]; try discriminate.
    destruct (hex_value a) as [x|] eqn:A; [|discriminate]. destruct (hex_value b) as [y|] eqn:B; [|discriminate].
    destruct (hex_value c) as [z|] eqn:C; [|discriminate]. destruct (hex_value d) as [w|] eqn:D; [|discriminate]. injection H as <- <-.
    exists [a; b; c; d]. split; [reflexivity|]. exists a, b, c, d, x, y, z, w. rewrite <- !hex_value_iff. split; [reflexivity|]. do 4 (split; [assumption|]). lia.
  - intros (h & -> & a & b & c & d & x & y & z & w & -> & A & B & C & D & ->). apply hex_value_iff in A, B, C, D.
    cbn [app read_hex4]. rewrite A, B, C, D. do 2 f_equal. lia.
Qed.
Lemma short_escape_iff e x : e <> 117%N -> (short_escape e = Some x <-> In (e, x) escapes).
Proof.
  intros _. unfold short_escape. split.
  - repeat match goal with |- context [(e =? ?k)%N] => destruct (N.eqb_spec e k) as [->|?]; [intros H; assert (E : x = _) by (injection H; intros X; symmetry; exact X); rewrite E; cbv; tauto|] end. discriminate.
  - intros H. cbv [escapes combine lit] in H. repeat (destruct H as [H|H]; [assert (X := f_equal fst H); assert (Y := f_equal snd H); cbn [fst snd] in X, Y; subst e x; reflexivity|]). destruct H.
Qed.
Lemma is_high_iff n : is_high n = true <-> high n.
Proof. unfold is_high, high. rewrite andb_true_iff, !N.leb_le. lia. Qed.
Lemma is_low_iff n : is_low n = true <-> low n.
Proof. unfold is_low, low. rewrite andb_true_iff, !N.leb_le. lia. Qed.

Lemma U_app s : lit "\u" ++ s = 92%N :: 117%N :: s.
Proof. reflexivity. Qed.
Lemma scan_string_sound n : forall s t q, scan_string n s = Some (t, q) -> exists b, s = b ++ 34%N :: q /\ in_quotes b t.
Proof.
  induction n as [|n IH]; intros s t q H; cbn [scan_string] in H; [discriminate|]. destruct s as [|c r]; [discriminate|].
  destruct (N.eqb_spec c QUOTE) as [->|NQ].
  { injection H as <- <-. exists []. split; [reflexivity|constructor]. }
  destruct (N.eqb_spec c BSLASH) as [->|NB].
  - destruct r as [|e r1]; [discriminate|]. destruct (N.eqb_spec e 117) as [->|NU].
    + cbv zeta in H. destruct (read_u r1) as [[x r2]|] eqn:RU; [|discriminate]. destruct (scan_string n r2) as [[t' q']|] eqn:SC; [|discriminate]. injection H as <- <-.
      destruct (IH _ _ _ SC) as (b & Eb & IB). unfold read_u in RU. destruct (read_hex4 r1) as [[n0 r]|] eqn:RH; [|discriminate].
      apply read_hex4_some in RH as (h & -> & HN).
      assert (SIMPLE : x = n0 -> r2 = r -> (high n0 -> forall h' m r', b = lit "\u" ++ h' ++ r' -> hex_number h' m -> ~ low m) ->
        exists b0, BSLASH :: 117%N :: h ++ r = b0 ++ 34%N :: q' /\ in_quotes b0 (x :: t')).
      { intros -> -> SD. exists (lit "\u" ++ h ++ b). split; [|now apply (iq_code h n0 b)]. rewrite U_app, Eb. cbn [app]. rewrite <- app_assoc. reflexivity. }
      destruct (is_high n0) eqn:HI.
      * destruct r as [|a [|u r3]].
        -- injection RU as <- <-. apply SIMPLE; auto. intros _ h' m r' Er _. destruct b; [discriminate Er|discriminate Eb].
        -- injection RU as <- <-. apply SIMPLE; auto. intros _ h' m r' Er _. rewrite Er, U_app in Eb. discriminate Eb.
        -- destruct ((a =? BSLASH) && (u =? 117))%N eqn:AU.
           ++ apply andb_true_iff in AU as [A U]. apply N.eqb_eq in A, U. subst a u. destruct (read_hex4 r3) as [[m r4]|] eqn:R4; [|discriminate].
              pose proof R4 as R4'. apply read_hex4_some in R4 as (h2 & -> & HM).
              destruct (is_low m) eqn:LO.
              ** remember (65536 + (n0 - 55296) * 1024 + (m - 56320))%N as k eqn:Ek in RU. injection RU as <- <-. exists (lit "\u" ++ h ++ lit "\u" ++ h2 ++ b). split.
                 --- rewrite !U_app, Eb. cbn [app]. rewrite <- !app_assoc. cbn [app]. rewrite <- !app_assoc. reflexivity.
                 --- rewrite Ek. exact (iq_pair h n0 h2 m b t' HN (proj1 (is_high_iff n0) HI) HM (proj1 (is_low_iff m) LO) IB).
              ** injection RU as <- <-. apply SIMPLE; auto. intros _ h' m' r' Er HM' LO'. rewrite Er, U_app in Eb. cbn [app] in Eb. injection Eb as Eb.
                 assert (X : read_hex4 (h2 ++ r4) = Some (m', r' ++ 34%N :: q')) by (apply read_hex4_some; exists h'; split; [rewrite Eb, <- app_assoc; reflexivity|exact HM']).
                 rewrite R4' in X. injection X as -> _. apply is_low_iff in LO'. congruence.
           ++ injection RU as <- <-. apply SIMPLE; auto. intros _ h' m r' Er _. rewrite Er, U_app in Eb. cbn [app] in Eb. injection Eb as -> -> _. discriminate AU.
      * injection RU as <- <-. apply SIMPLE; auto. intros X. apply is_high_iff in X. congruence.
    + cbv zeta in H. destruct (short_escape e) as [x|] eqn:SE; [|discriminate]. destruct (scan_string n r1) as [[t' q']|] eqn:SC; [|discriminate]. injection H as <- <-.
      destruct (IH _ _ _ SC) as (b & -> & IB). exists (92%N :: e :: b). split; [reflexivity|]. constructor; [now apply short_escape_iff|exact IB].
  - destruct (N.ltb_spec c 32) as [L|L]; [discriminate|]. destruct (scan_string n r) as [[t' q']|] eqn:SC; [|discriminate]. injection H as <- <-.
    destruct (IH _ _ _ SC) as (b & -> & IB). exists (c :: b). split; [reflexivity|]. now constructor.
Qed.

Lemma escape_not_u x : ~ In (117%N, x) escapes.
Proof. cbv. intuition discriminate. Qed.
Lemma code_follows r t : in_quotes (92%N :: 117%N :: r) t -> exists h m r', r = h ++ r' /\ hex_number h m.
Proof.
  intros H. inversion H as [|c s t' L NQ NB I|e x s t' IN I|h n s t' HN SD I E1 E2|h n h' m s t' HN HI HM LO I E1 E2]; subst.
  - congruence.
  - destruct (escape_not_u x IN).
  - eauto.
  - eauto.
Qed.
Lemma scan_string_complete b t : in_quotes b t -> forall n q, length b < n -> scan_string n (b ++ 34%N :: q) = Some (t, q).
Proof.
  induction 1 as [|c s t L NQ NB I IH|e x s t IN I IH|h n0 s t HN SD I IH|h n0 h' m s t HN HI HM LO I IH]; intros n q LE.
  - destruct n; [inversion LE|]. reflexivity.
  - destruct n; [inversion LE|]. cbn [length] in LE. cbn [app scan_string]. destruct (N.eqb_spec c QUOTE); [contradiction|]. destruct (N.eqb_spec c BSLASH); [contradiction|].
    destruct (N.ltb_spec c 32); [lia|]. rewrite IH by lia. reflexivity.
  - destruct n; [inversion LE|]. cbn [length] in LE. cbn [app scan_string]. change (92 =? QUOTE)%N with false. change (92 =? BSLASH)%N with true. cbv iota zeta.
    assert (NU : e <> 117%N) by (intros ->; now apply (escape_not_u x)).
    destruct (N.eqb_spec e 117); [contradiction|]. rewrite (proj2 (short_escape_iff e x NU) IN). rewrite IH by lia. reflexivity.
  - destruct n; [inversion LE|]. pose proof (hex_number_length h n0 HN) as LH. rewrite U_app in *. cbn [length] in LE. rewrite app_length in LE. cbn [app scan_string]. change (92 =? QUOTE)%N with false.
    change (92 =? BSLASH)%N with true. change (117 =? 117)%N with true. cbv iota zeta.
    assert (RU : read_u ((h ++ s) ++ 34%N :: q) = Some (n0, s ++ 34%N :: q)).
    { unfold read_u. rewrite <- app_assoc. rewrite (proj2 (read_hex4_some (h ++ s ++ 34%N :: q) n0 (s ++ 34%N :: q))) by (exists h; auto).
      destruct (is_high n0) eqn:HI; [|reflexivity]. apply is_high_iff in HI. specialize (SD HI).
      destruct s as [|a [|u s]]; [cbn [app]; destruct q; reflexivity|cbn [app]; change (34 =? 117)%N with false; rewrite andb_false_r; reflexivity|]. cbn [app]. destruct ((a =? BSLASH) && (u =? 117))%N eqn:AU; [|reflexivity].
      apply andb_true_iff in AU as [A U]. apply N.eqb_eq in A, U. subst a u. destruct (code_follows _ _ I) as (h2 & m & r' & -> & HM).
      rewrite <- app_assoc. rewrite (proj2 (read_hex4_some (h2 ++ r' ++ 34%N :: q) m (r' ++ 34%N :: q))) by (exists h2; auto).
      destruct (is_low m) eqn:LO; [|reflexivity]. apply is_low_iff in LO. exfalso. now apply (SD h2 m r'). }
    rewrite RU. rewrite IH by lia. reflexivity.
  - destruct n; [inversion LE|]. rewrite !U_app in *. cbn [length] in LE. rewrite app_length in LE. cbn [length] in LE. rewrite app_length in LE. cbn [app scan_string]. change (92 =? QUOTE)%N with false.
    change (92 =? BSLASH)%N with true. change (117 =? 117)%N with true. cbv iota zeta.
    assert (RU : read_u ((h ++ 92%N :: 117%N :: h' ++ s) ++ 34%N :: q) = Some ((65536 + (n0 - 55296) * 1024 + (m - 56320))%N, s ++ 34%N :: q)).
    { unfold read_u. rewrite <- app_assoc. rewrite (proj2 (read_hex4_some _ n0 ((92%N :: 117%N :: h' ++ s) ++ 34%N :: q))) by (exists h; auto).
      rewrite (proj2 (is_high_iff n0) HI). cbn [app]. change ((92 =? BSLASH) && (117 =? 117))%N with true. cbv iota.
      rewrite <- app_assoc. rewrite (proj2 (read_hex4_some _ m (s ++ 34%N :: q))) by (exists h'; auto). now rewrite (proj2 (is_low_iff m) LO). }
    rewrite RU. rewrite IH by lia. reflexivity.
Qed.

(** ** Numbers *)
Lemma digit_iff c : is_digit c = true <-> decimal_digit c.
Proof. unfold is_digit, decimal_digit. rewrite andb_true_iff, !N.leb_le. reflexivity. Qed.
Lemma digits_iff d : digits d <-> some_digits d.
Proof. unfold digits, some_digits. split; intros [A B]; (split; [exact A|]); revert B; apply Forall_impl; intros c; apply digit_iff. Qed.
Lemma int_iff i : is_int i <-> int_digits i.
Proof. unfold is_int, int_digits. rewrite digits_iff. reflexivity. Qed.
Lemma str_uint_step (c : char) (r : str) : decimal_digit c -> exists k : Decimal.uint -> Decimal.uint,
  str_uint (c :: r) = k (str_uint r) /\
  (forall acc, Pos.of_uint_acc (k (str_uint r)) acc = Pos.of_uint_acc (str_uint r) (N.succ_pos (N.pred (N.pos acc * 10 + (c - 48))))) /\
  N.of_uint (k (str_uint r)) = match (c - 48)%N with 0%N => N.of_uint (str_uint r) | N.pos p => N.pos (Pos.of_uint_acc (str_uint r) p) end.
Proof.
  intros H. cbn [str_uint].
  assert (X : (c = 48 \/ c = 49 \/ c = 50 \/ c = 51 \/ c = 52 \/ c = 53 \/ c = 54 \/ c = 55 \/ c = 56 \/ c = 57)%N) by (unfold decimal_digit in H; lia).
  set (d := str_uint r). clearbody d.
  repeat destruct X as [->|X]; try subst c; (eexists; split; [reflexivity|]; split; [intros acc; cbn [Pos.of_uint_acc]; f_equal; lia|reflexivity]).
Qed.
Lemma read_acc i : Forall decimal_digit i -> forall acc, N.pos (Pos.of_uint_acc (str_uint i) acc) = fold_left (fun a c => a * 10 + (c - 48))%N i (N.pos acc).
Proof.
  induction 1 as [|c i H F IH]; intros acc; [reflexivity|]. destruct (str_uint_step c i H) as (k & E & A & _). rewrite E, A, IH. cbn [fold_left]. f_equal. lia.
Qed.
Lemma read_decimal i : Forall decimal_digit i -> read_N i = decimal_value i.
Proof.
  unfold read_N, decimal_value. induction 1 as [|c i H F IH]; [reflexivity|]. destruct (str_uint_step c i H) as (k & E & _ & B). rewrite E, B. cbn [fold_left].
  change (0 * 10 + (c - 48))%N with (c - 48)%N. destruct (c - 48)%N as [|p] eqn:C; [exact IH|]. now apply read_acc.
Qed.

Lemma span_sound s a b : span is_digit s = (a, b) -> s = a ++ b /\ Forall decimal_digit a.
Proof.
  revert a b. induction s as [|c s IH]; intros a b H; cbn [span] in H; [injection H as <- <-; auto|].
  destruct (is_digit c) eqn:D; [|injection H as <- <-; auto]. destruct (span is_digit s) as [a' b'] eqn:S. injection H as <- <-. destruct (IH _ _ eq_refl) as [-> F].
  split; [reflexivity|]. constructor; [now apply digit_iff|exact F].
Qed.
Lemma take_minus_sound s m r : take_minus s = (m, r) -> s = m ++ r /\ In m [[]; lit "-"].
Proof.
  unfold take_minus. destruct s as [|c s]; [intros H; injection H as <- <-; cbn; auto|]. destruct (N.eqb_spec c MINUS) as [->|]; intros H; injection H as <- <-; cbn; auto.
Qed.
Lemma take_int_sound s i r : take_int s = (i, r) -> s = i ++ r /\ (i <> [] -> int_digits i).
Proof.
  unfold take_int. destruct s as [|c s]; [intros H; injection H as <- <-; split; [reflexivity|congruence]|]. destruct (N.eqb_spec c 48) as [->|N].
  - intros H. injection H as <- <-. split; [reflexivity|]. intros _. split; [split; [discriminate|repeat constructor; lia]|now left].
  - intros H. apply span_sound in H as [E F]. split; [exact E|]. intros NE. split; [now split|]. right. destruct i; [congruence|]. injection E as <- _. exact N.
Qed.
Lemma take_frac_sound s f r : take_frac s = (f, r) -> s = f ++ r /\ fraction f.
Proof.
  unfold take_frac. destruct s as [|c s]; [intros H; injection H as <- <-; split; [reflexivity|now left]|]. destruct (N.eqb_spec c DOT) as [->|N].
  - destruct (span is_digit s) as [d q] eqn:S. apply span_sound in S as [-> F]. destruct d as [|x d].
    + intros H. injection H as <- <-. split; [reflexivity|now left].
    + intros H. injection H as <- <-. split; [reflexivity|]. right. exists (x :: d). split; [reflexivity|]. split; [discriminate|exact F].
  - intros H. injection H as <- <-. split; [reflexivity|now left].
Qed.
Lemma take_exp_sound s e r : take_exp s = (e, r) -> s = e ++ r /\ exponent e.
Proof.
  unfold take_exp. destruct s as [|c s]; [intros H; injection H as <- <-; split; [reflexivity|now left]|]. destruct ((c =? 101) || (c =? 69))%N eqn:C.
  - destruct (take_sign s) as [g q] eqn:G. destruct (span is_digit q) as [d t] eqn:S. apply span_sound in S as [-> F].
    assert (EG : s = g ++ d ++ t /\ In g [[]; lit "+"; lit "-"]).
    { unfold take_sign in G. destruct s as [|x s]; [injection G as <- E; destruct d, t; try discriminate; cbn; auto|].
      destruct ((x =? PLUS) || (x =? MINUS))%N eqn:X; injection G as <- E.
      - subst s. split; [reflexivity|]. apply orb_true_iff in X as [X|X]; apply N.eqb_eq in X; subst x; cbn; auto.
      - split; [exact E|now left]. }
    destruct EG as [-> IG]. destruct d as [|x d]; intros H; injection H as <- <-.
    + split; [reflexivity|now left].
    + split; [cbn [app]; now rewrite <- app_assoc|]. right. exists c, g, (x :: d). split; [reflexivity|]. split; [|split; [exact IG|split; [discriminate|exact F]]].
      apply orb_true_iff in C as [C|C]; apply N.eqb_eq in C; subst c; cbv; auto.
  - intros H. injection H as <- <-. split; [reflexivity|now left].
Qed.

Section Values.
Variable refloat : str -> str.
Variable object : list (str * jv) -> jv.
Lemma scan_number_sound s v r : scan_number refloat s = Some (v, r) -> exists b, s = b ++ r /\ number refloat b v.
Proof.
  unfold scan_number. destruct (take_minus s) as [m s1] eqn:M. apply take_minus_sound in M as [-> IM]. destruct (take_int s1) as [i s2] eqn:I. apply take_int_sound in I as [-> II].
  destruct i as [|c i]; [discriminate|]. specialize (II ltac:(discriminate)). set (ci := c :: i) in *.
  destruct (take_frac s2) as [f s3] eqn:F. apply take_frac_sound in F as [-> IF]. destruct (take_exp s3) as [e s4] eqn:X. apply take_exp_sound in X as [-> IX].
  assert (FL : f ++ e <> [] -> exists b, m ++ ci ++ f ++ e ++ s4 = b ++ s4 /\ number refloat b (JFloat (refloat (m ++ ci ++ f ++ e)))).
  { intros NE. exists (m ++ ci ++ f ++ e). split; [now rewrite <- !app_assoc|]. now apply nu_float. }
  assert (DI : Forall decimal_digit ci) by apply II.
  destruct f as [|f0 f]; [destruct e as [|e0 e]|].
  - cbn [app]. intros H. assert (E : v = JInt (match m with [] => Z.of_N (read_N ci) | _ => - Z.of_N (read_N ci) end) /\ r = s4) by (split; congruence). destruct E as [-> ->].
    exists (m ++ ci). split; [cbn [app]; now rewrite <- app_assoc|]. rewrite read_decimal by exact DI. destruct IM as [<-|[<-|[]]]; [now apply nu_int|now apply nu_neg].
  - intros H. assert (E : v = JFloat (refloat (m ++ ci ++ [] ++ e0 :: e)) /\ r = s4) by (split; congruence). destruct E as [-> ->]. apply FL. discriminate.
  - intros H. assert (E : v = JFloat (refloat (m ++ ci ++ (f0 :: f) ++ e)) /\ r = s4) by (split; congruence). destruct E as [-> ->]. apply FL. discriminate.
Qed.
Definition num_head (t : str) : Prop := exists c r, t = c :: r /\ (is_digit c = true \/ (c = MINUS /\ exists d r', r = d :: r' /\ is_digit d = true)).
Lemma int_head i s : int_digits i -> num_head (i ++ s) /\ num_head (lit "-" ++ i ++ s).
Proof.
  intros [[NE F] _]. destruct i as [|c i]; [congruence|]. inversion F as [|? ? D _]; subst. apply digit_iff in D. cbn [app].
  split; [exists c, (i ++ s); auto|]. exists MINUS, (c :: i ++ s). split; [reflexivity|]. right. split; [reflexivity|]. eauto.
Qed.
Lemma number_head t v s : number refloat t v -> num_head (t ++ s).
Proof.
  destruct 1 as [i I|i I|m i f e IM I IF IX NE].
  - now apply int_head.
  - rewrite <- app_assoc. now apply int_head.
  - rewrite <- !app_assoc. destruct IM as [<-|[<-|[]]]; [cbn [app]|]; now apply int_head.
Qed.
Definition refl_num (v : jv) : jv := match v with JFloat t => JFloat (refloat t) | _ => v end.
Lemma scan_number_id s : scan_number refloat s = match scan_number (fun t => t) s with Some (v, r) => Some (refl_num v, r) | None => None end.
Proof.
  unfold scan_number. destruct (take_minus s) as [m s1]. destruct (take_int s1) as [i s2]. destruct i; [reflexivity|]. destruct (take_frac s2) as [f s3]. destruct (take_exp s3) as [e s4].
  destruct f; [destruct e|]; reflexivity.
Qed.
Lemma scan_number_complete b v r : number refloat b v -> stops r -> scan_number refloat (b ++ r) = Some (v, r).
Proof.
  intros H S. destruct H as [i I|i I|m i f e IM I IF IX NE].
  - rewrite scan_int by (try assumption; now apply int_iff). rewrite read_decimal by apply I. reflexivity.
  - change ((lit "-" ++ i) ++ r) with (MINUS :: i ++ r). rewrite scan_neg by (try assumption; now apply int_iff). rewrite read_decimal by apply I. reflexivity.
  - rewrite scan_number_id. set (t := m ++ i ++ f ++ e) in *.
    assert (HD : num_head t).
    { unfold t. destruct IM as [<-|[<-|[]]]; [cbn [app]|]; now apply int_head. }
    assert (FR : float_repr (fun t => t) t).
    { right. right. right. split; [reflexivity|]. exists m, i, f, e. split; [reflexivity|]. split; [destruct IM as [<-|[<-|[]]]; auto|]. apply int_iff in I as [I1 I2].
      split; [exact I1|]. split; [exact I2|]. split; [|split].
      - destruct IF as [->|(d & -> & D)]; [now left|right]. exists d. split; [reflexivity|now apply digits_iff].
      - destruct IX as [->|(c & g & d & -> & C & G & D)]; [now left|right]. exists c, g, d. split; [reflexivity|].
        split; [destruct C as [C|[C|[]]]; [left|right]; symmetry; exact C|]. split; [destruct G as [<-|[<-|[<-|[]]]]; auto|now apply digits_iff].
      - destruct f; [right|left; discriminate]. exact NE. }
    assert (NN : t <> lit "nan" /\ t <> lit "inf" /\ t <> lit "-inf").
    { destruct HD as (c & q & -> & [D|(-> & d & r' & -> & D)]).
      - repeat split; intros X; (assert (Y := f_equal (hd 0%N) X); cbn [hd] in Y; subst c; discriminate D).
      - repeat split; intros X; try discriminate X. assert (Y := f_equal (fun l => hd 0%N (tl l)) X). cbn [hd tl] in Y. subst d. discriminate D. }
    destruct NN as (N1 & N2 & N3). rewrite (proj1 (scan_float (fun t => t) t r FR N1 N2 N3 S)). reflexivity.
Qed.

(** ** Values *)
Lemma ws_iff c : is_ws c = true <-> In c [32; 9; 10; 13]%N.
Proof.
  unfold is_ws. rewrite !orb_true_iff, !N.eqb_eq. cbn [In]. split.
  - intros [[[->| ->]| ->]| ->]; auto.
  - intros [<-|[<-|[<-|[<-|[]]]]]; auto.
Qed.
Lemma skip_split s : exists w, s = w ++ skip_ws s /\ blank w.
Proof.
  induction s as [|c s (w & E & B)]; [exists []; split; [reflexivity|constructor]|]. cbn [skip_ws]. destruct (is_ws c) eqn:W.
  - exists (c :: w). split; [cbn [app]; now rewrite <- E|]. constructor; [now apply ws_iff|exact B].
  - exists []. split; [reflexivity|constructor].
Qed.
Lemma skip_blank w s : blank w -> skip_ws (w ++ s) = skip_ws s.
Proof. induction 1 as [|c w H B IH]; [reflexivity|]. cbn [app skip_ws]. now rewrite (proj2 (ws_iff c) H). Qed.
Lemma skip_all w : blank w -> skip_ws w = [].
Proof. intros B. rewrite <- (app_nil_r w). now rewrite skip_blank. Qed.
Lemma skip_none w : skip_ws w = [] -> blank w.
Proof. intros H. destruct (skip_split w) as (x & E & B). rewrite H, app_nil_r in E. now subst. Qed.
Lemma stops_blank w s : blank w -> stops s -> stops (w ++ s).
Proof. intros B S. destruct B as [|c w H B]; [exact S|]. cbn [app]. destruct H as [<-|[<-|[<-|[<-|[]]]]]; (split; [reflexivity|repeat split; discriminate]). Qed.
Lemma stops_at c s : In c [44; 93; 125]%N -> stops (c :: s).
Proof. intros [<-|[<-|[<-|[]]]]; (split; [reflexivity|repeat split; discriminate]). Qed.

Lemma strip_some p s r : strip_prefix p s = Some r -> s = p ++ r.
Proof. unfold strip_prefix. destruct (starts_with p s) eqn:E; [|discriminate]. intros H. injection H as <-. apply starts_with_iff in E as [t ->]. rewrite skipn_app, Nat.sub_diag, skipn_all. reflexivity. Qed.
Lemma scan_atom_sound s v r : scan_atom refloat s = Some (v, r) -> exists b, s = b ++ r /\ json refloat object b v.
Proof.
  unfold scan_atom. intros H.
  repeat match type of H with match strip_prefix ?p s with _ => _ end = _ =>
    destruct (strip_prefix p s) as [q|] eqn:E; [apply strip_some in E; injection H as <- <-; exists p; split; [exact E|constructor]|clear E] end.
  apply scan_number_sound in H as (b & E & N). exists b. split; [exact E|now apply js_number].
Qed.

Ltac flat := repeat (progress (cbn [app]; rewrite <- ?app_assoc)); reflexivity.
Lemma items_blank w b l : blank w -> items refloat object b l -> items refloat object (w ++ b) l.
Proof.
  intros B I. destruct I as [w0 s v w' B0 J B'|w0 s v w' r l B0 J B' I]; rewrite app_assoc; constructor; auto; now apply Forall_app.
Qed.
Lemma members_blank w b l : blank w -> members refloat object b l -> members refloat object (w ++ b) l.
Proof.
  intros B I. destruct I; rewrite app_assoc; constructor; auto; now apply Forall_app.
Qed.
Lemma scan_S n s : scan refloat object (S n) s =
        match s with
        | [] => None
        | c :: r =>
            if (c =? QUOTE)%N then match scan_string n r with Some (t, q) => Some (JStr t, q) | None => None end
            else if (c =? LBRACK)%N then
              match skip_ws r with
              | d :: q => if (d =? RBRACK)%N then Some (JList [], q)
                          else match scan_items refloat object n (d :: q) with Some (l, q') => Some (JList l, q') | None => None end
              | [] => None
              end
            else if (c =? LBRACE)%N then
              match skip_ws r with
              | d :: q => if (d =? RBRACE)%N then Some (object [], q)
                          else match scan_pairs refloat object n (d :: q) with Some (l, q') => Some (object l, q') | None => None end
              | [] => None
              end
            else scan_atom refloat s
        end.
Proof. reflexivity. Qed.
Lemma scan_items_S n s : scan_items refloat object (S n) s =
        match scan refloat object n s with
        | None => None
        | Some (v, r) =>
            match skip_ws r with
            | [] => None
            | d :: q =>
                if (d =? RBRACK)%N then Some ([v], q)
                else if (d =? COMMA)%N then match scan_items refloat object n (skip_ws q) with Some (l, q') => Some (v :: l, q') | None => None end
                else None
            end
        end.
Proof. reflexivity. Qed.
Lemma scan_pairs_S n s : scan_pairs refloat object (S n) s =
        match s with
        | c :: r0 =>
            if (c =? QUOTE)%N then
              match scan_string n r0 with
              | None => None
              | Some (k, r) =>
                  match skip_ws r with
                  | d :: q =>
                      if (d =? COLON)%N then
                        match scan refloat object n (skip_ws q) with
                        | None => None
                        | Some (v, r1) =>
                            match skip_ws r1 with
                            | [] => None
                            | e :: q1 =>
                                if (e =? RBRACE)%N then Some ([(k, v)], q1)
                                else if (e =? COMMA)%N then
                                  match scan_pairs refloat object n (skip_ws q1) with Some (l, q') => Some ((k, v) :: l, q') | None => None end
                                else None
                            end
                        end
                      else None
                  | [] => None
                  end
              end
            else None
        | [] => None
        end.
Proof. reflexivity. Qed.
Lemma scan_sound n :
  (forall s v r, scan refloat object n s = Some (v, r) -> exists b, s = b ++ r /\ json refloat object b v) /\
  (forall s l r, scan_items refloat object n s = Some (l, r) -> exists b, s = b ++ 93%N :: r /\ items refloat object b l) /\
  (forall s l r, scan_pairs refloat object n s = Some (l, r) -> exists b, s = b ++ 125%N :: r /\ members refloat object b l).
Proof.
  induction n as [|n (IH1 & IH2 & IH3)]; [repeat split; intros; discriminate|]. split; [|split].
  - intros s v r H. rewrite scan_S in H. destruct s as [|c s]; [discriminate|].
    destruct (N.eqb_spec c QUOTE) as [->|_].
    { destruct (scan_string n s) as [[t q]|] eqn:S; [|discriminate]. injection H as <- <-. apply scan_string_sound in S as (b & -> & I).
      exists (lit """" ++ b ++ lit """"). split; [rewrite <- !app_assoc; reflexivity|now apply js_text]. }
    destruct (N.eqb_spec c LBRACK) as [->|_].
    { destruct (skip_split s) as (w & E & B). destruct (skip_ws s) as [|d q]; [discriminate|]. destruct (N.eqb_spec d RBRACK) as [->|_].
      - injection H as <- <-. exists (lit "[" ++ w ++ lit "]"). split; [rewrite E, <- !app_assoc; reflexivity|now apply js_no_items].
      - destruct (scan_items refloat object n (d :: q)) as [[l q']|] eqn:S; [|discriminate]. injection H as <- <-. apply IH2 in S as (b & Eb & I). rewrite Eb in E.
        exists (lit "[" ++ (w ++ b) ++ lit "]"). split; [rewrite E, <- !app_assoc; reflexivity|]. apply js_list. now apply items_blank. }
    destruct (N.eqb_spec c LBRACE) as [->|_].
    { destruct (skip_split s) as (w & E & B). destruct (skip_ws s) as [|d q]; [discriminate|]. destruct (N.eqb_spec d RBRACE) as [->|_].
      - injection H as <- <-. exists (lit "{" ++ w ++ lit "}"). split; [rewrite E, <- !app_assoc; reflexivity|now apply js_no_members].
      - destruct (scan_pairs refloat object n (d :: q)) as [[l q']|] eqn:S; [|discriminate]. injection H as <- <-. apply IH3 in S as (b & Eb & I). rewrite Eb in E.
        exists (lit "{" ++ (w ++ b) ++ lit "}"). split; [rewrite E, <- !app_assoc; reflexivity|]. apply js_object. now apply members_blank. }
    now apply scan_atom_sound.
  - intros s l r H. rewrite scan_items_S in H. destruct (scan refloat object n s) as [[v r1]|] eqn:S; [|discriminate]. apply IH1 in S as (b & -> & J).
    destruct (skip_split r1) as (w & E & B). destruct (skip_ws r1) as [|d q]; [discriminate|]. destruct (N.eqb_spec d RBRACK) as [->|_].
    + injection H as <- <-. exists ([] ++ b ++ w). split; [rewrite E; cbn [app]; now rewrite <- app_assoc|]. apply it_last; [constructor|exact J|exact B].
    + destruct (N.eqb_spec d COMMA) as [->|_]; [|discriminate]. destruct (scan_items refloat object n (skip_ws q)) as [[l' q']|] eqn:S; [|discriminate]. injection H as <- <-.
      apply IH2 in S as (b' & Eb & I). destruct (skip_split q) as (w' & Eq & B'). rewrite Eb in Eq. exists ([] ++ b ++ w ++ lit "," ++ (w' ++ b')). split.
      * rewrite E, Eq. flat.
      * apply it_more; [constructor|exact J|exact B|now apply items_blank].
  - intros s l r H. rewrite scan_pairs_S in H. destruct s as [|c r0]; [discriminate|]. destruct (N.eqb_spec c QUOTE) as [->|_]; [|discriminate].
    destruct (scan_string n r0) as [[k r1]|] eqn:S; [|discriminate]. apply scan_string_sound in S as (kb & -> & IK).
    destruct (skip_split r1) as (w1 & E1 & B1). destruct (skip_ws r1) as [|d q]; [discriminate|]. destruct (N.eqb_spec d COLON) as [->|_]; [|discriminate].
    destruct (skip_split q) as (w2 & E2 & B2). destruct (scan refloat object n (skip_ws q)) as [[v r2]|] eqn:S; [|discriminate]. apply IH1 in S as (b & Eb & J). rewrite Eb in E2.
    destruct (skip_split r2) as (w3 & E3 & B3). destruct (skip_ws r2) as [|e q1]; [discriminate|]. destruct (N.eqb_spec e RBRACE) as [->|_].
    + injection H as <- <-. exists ([] ++ lit """" ++ kb ++ lit """" ++ w1 ++ lit ":" ++ w2 ++ b ++ w3). split.
      * rewrite E1, E2, E3. flat.
      * apply me_last; auto. constructor.
    + destruct (N.eqb_spec e COMMA) as [->|_]; [|discriminate]. destruct (scan_pairs refloat object n (skip_ws q1)) as [[l' q']|] eqn:S; [|discriminate]. injection H as <- <-.
      apply IH3 in S as (b' & Eb' & I). destruct (skip_split q1) as (w4 & E4 & B4). rewrite Eb' in E4.
      exists ([] ++ lit """" ++ kb ++ lit """" ++ w1 ++ lit ":" ++ w2 ++ b ++ w3 ++ lit "," ++ (w4 ++ b')). split.
      * rewrite E1, E2, E3, E4. flat.
      * apply me_more; auto; [constructor|now apply members_blank].
Qed.

Lemma json_head s v : json refloat object s v -> exists c r, s = c :: r /\ is_ws c = false /\ c <> 93%N.
Proof.
  destruct 1 as [| | | | | |s v N|s t I|w B|s l I|w B|s l I]; try (eexists _, _; split; [reflexivity|split; [reflexivity|discriminate]]).
  destruct (number_head s v [] N) as (c & r & E & H). rewrite app_nil_r in E. exists c, r. split; [exact E|]. destruct H as [H|[-> _]]; [|split; [reflexivity|discriminate]].
  apply digit_iff in H. unfold decimal_digit in H. split; [|lia]. destruct (is_ws c) eqn:W; [|reflexivity]. apply ws_iff in W. cbn [In] in W. lia.
Qed.
Lemma skip_json s v r : json refloat object s v -> skip_ws (s ++ r) = s ++ r.
Proof. intros J. destruct (json_head s v J) as (c & q & -> & W & _). cbn [app skip_ws]. now rewrite W. Qed.

Lemma scan_complete :
  (forall s v, json refloat object s v -> forall n r, length s < n -> stops r -> scan refloat object n (s ++ r) = Some (v, r)) /\
  (forall s l, items refloat object s l -> forall n r, S (length s) < n ->
     scan_items refloat object n (skip_ws (s ++ 93%N :: r)) = Some (l, r) /\ exists d q, skip_ws (s ++ 93%N :: r) = d :: q /\ d <> 93%N) /\
  (forall s l, members refloat object s l -> forall n r, S (length s) < n ->
     scan_pairs refloat object n (skip_ws (s ++ 125%N :: r)) = Some (l, r) /\ exists q, skip_ws (s ++ 125%N :: r) = 34%N :: q).
Proof.
  apply grammar_min.
  - intros n r L S. destruct n; [inversion L|]. rewrite scan_S. reflexivity.
  - intros n r L S. destruct n; [inversion L|]. rewrite scan_S. reflexivity.
  - intros n r L S. destruct n; [inversion L|]. rewrite scan_S. reflexivity.
  - intros n r L S. destruct n; [inversion L|]. rewrite scan_S. reflexivity.
  - intros n r L S. destruct n; [inversion L|]. rewrite scan_S. reflexivity.
  - intros n r L S. destruct n; [inversion L|]. rewrite scan_S. reflexivity.
  - intros s v N n r L S. destruct n; [inversion L|]. pose proof (number_head s v r N) as H. rewrite <- (scan_number_complete s v r N S).
    rewrite <- (scan_atom_number refloat (s ++ r) H). destruct H as (c & q & E & H). rewrite scan_S, E.
    assert (X : c <> QUOTE /\ c <> LBRACK /\ c <> LBRACE).
    { destruct H as [H|[-> _]]; [|repeat split; discriminate]. repeat split; intros ->; discriminate H. }
    destruct X as (X1 & X2 & X3). destruct (N.eqb_spec c QUOTE); [contradiction|]. destruct (N.eqb_spec c LBRACK); [contradiction|]. destruct (N.eqb_spec c LBRACE); [contradiction|]. reflexivity.
  - intros s t I n r L S. destruct n; [inversion L|]. rewrite scan_S. rewrite <- !app_assoc. change (lit """" ++ s ++ lit """" ++ r) with (34%N :: s ++ 34%N :: r). cbv iota beta.
    change (34 =? QUOTE)%N with true. cbv iota. rewrite (scan_string_complete s t I); [reflexivity|]. rewrite !app_length in L. change (length (lit """")) with 1 in L. lia.
  - intros w B n r L S. destruct n; [inversion L|]. rewrite scan_S. rewrite <- !app_assoc. change (lit "[" ++ w ++ lit "]" ++ r) with (91%N :: w ++ 93%N :: r). cbv iota beta.
    change (91 =? QUOTE)%N with false. change (91 =? LBRACK)%N with true. cbv iota. rewrite skip_blank by exact B. reflexivity.
  - intros s l _ IH n r L S. destruct n; [inversion L|]. rewrite scan_S. rewrite <- !app_assoc. change (lit "[" ++ s ++ lit "]" ++ r) with (91%N :: s ++ 93%N :: r). cbv iota beta.
    change (91 =? QUOTE)%N with false. change (91 =? LBRACK)%N with true. cbv iota. rewrite !app_length in L. change (length (lit "[")) with 1 in L. change (length (lit "]")) with 1 in L.
    destruct (IH n r ltac:(lia)) as (H & d & q & E & N). rewrite E in *. destruct (N.eqb_spec d RBRACK); [contradiction|]. now rewrite H.
  - intros w B n r L S. destruct n; [inversion L|]. rewrite scan_S. rewrite <- !app_assoc. change (lit "{" ++ w ++ lit "}" ++ r) with (123%N :: w ++ 125%N :: r). cbv iota beta.
    change (123 =? QUOTE)%N with false. change (123 =? LBRACK)%N with false. change (123 =? LBRACE)%N with true. cbv iota. rewrite skip_blank by exact B. reflexivity.
  - intros s l _ IH n r L S. destruct n; [inversion L|]. rewrite scan_S. rewrite <- !app_assoc. change (lit "{" ++ s ++ lit "}" ++ r) with (123%N :: s ++ 125%N :: r). cbv iota beta.
    change (123 =? QUOTE)%N with false. change (123 =? LBRACK)%N with false. change (123 =? LBRACE)%N with true. cbv iota. rewrite !app_length in L. change (length (lit "{")) with 1 in L. change (length (lit "}")) with 1 in L.
    destruct (IH n r ltac:(lia)) as (H & q & E). rewrite E in *. exact (f_equal (fun x => match x with Some (l0, q') => Some (object l0, q') | None => None end) H).
  - intros w s v w' B J IH B' n r L. rewrite !app_length in L. rewrite <- !app_assoc, skip_blank, (skip_json s v) by assumption. split.
    + destruct n; [inversion L|]. rewrite scan_items_S, IH; [|lia|apply stops_blank; [exact B'|apply stops_at; cbn; auto]]. rewrite skip_blank by exact B'. reflexivity.
    + destruct (json_head s v J) as (c & q & -> & _ & N). cbn [app]. eauto.
  - intros w s v w' t l B J IH B' _ IH' n r L. rewrite !app_length in L. change (length (lit ",")) with 1 in L. destruct (json_head s v J) as (c & q & Es & _ & N).
    assert (L1 : 1 <= length s) by (rewrite Es; cbn [length]; lia).
    rewrite <- !app_assoc, skip_blank, (skip_json s v) by assumption. split.
    + destruct n; [inversion L|]. rewrite scan_items_S. change (lit "," ++ t ++ 93%N :: r) with (44%N :: t ++ 93%N :: r).
      rewrite IH; [|lia|apply stops_blank; [exact B'|apply stops_at; cbn; auto]]. rewrite skip_blank by exact B'.
      cbn [skip_ws]. change (is_ws 44%N) with false. cbv iota. change (44 =? RBRACK)%N with false. change (44 =? COMMA)%N with true. cbv iota. destruct (IH' n r ltac:(lia)) as [H _]. now rewrite H.
    + rewrite Es. cbn [app]. eauto.
  - intros w k t w1 w2 s v w3 B IK B1 B2 J IH B3 n r L. rewrite !app_length in L. change (length (lit """")) with 1 in L. change (length (lit ":")) with 1 in L.
    rewrite <- !app_assoc, skip_blank by assumption. match goal with |- context [skip_ws (lit """" ++ k ++ ?Z)] => set (z := Z) end.
    change (skip_ws (lit """" ++ k ++ z)) with (34%N :: k ++ z). split; [|eauto]. destruct n; [inversion L|]. rewrite scan_pairs_S. cbv iota beta. change (34 =? QUOTE)%N with true. cbv iota.
    unfold z. change (lit """" ++ w1 ++ lit ":" ++ w2 ++ s ++ w3 ++ 125%N :: r) with (34%N :: w1 ++ 58%N :: w2 ++ s ++ w3 ++ 125%N :: r).
    rewrite (scan_string_complete k t IK) by lia. rewrite skip_blank by exact B1. cbn [skip_ws]. change (is_ws 58%N) with false. cbv iota. change (58 =? COLON)%N with true. cbv iota.
    rewrite skip_blank, (skip_json s v) by assumption. rewrite IH; [|lia|apply stops_blank; [exact B3|apply stops_at; cbn; auto]]. rewrite skip_blank by exact B3. reflexivity.
  - intros w k t w1 w2 s v w3 u l B IK B1 B2 J IH B3 _ IH' n r L. rewrite !app_length in L. change (length (lit """")) with 1 in L. change (length (lit ":")) with 1 in L. change (length (lit ",")) with 1 in L.
    rewrite <- !app_assoc, skip_blank by assumption. match goal with |- context [skip_ws (lit """" ++ k ++ ?Z)] => set (z := Z) end.
    change (skip_ws (lit """" ++ k ++ z)) with (34%N :: k ++ z). split; [|eauto]. destruct n; [inversion L|]. rewrite scan_pairs_S. cbv iota beta. change (34 =? QUOTE)%N with true. cbv iota.
    unfold z. change (lit """" ++ w1 ++ lit ":" ++ w2 ++ s ++ w3 ++ lit "," ++ u ++ 125%N :: r) with (34%N :: w1 ++ 58%N :: w2 ++ s ++ w3 ++ 44%N :: u ++ 125%N :: r).
    rewrite (scan_string_complete k t IK) by lia. rewrite skip_blank by exact B1. cbn [skip_ws]. change (is_ws 58%N) with false. cbv iota. change (58 =? COLON)%N with true. cbv iota.
    rewrite skip_blank, (skip_json s v) by assumption. rewrite IH; [|lia|apply stops_blank; [exact B3|apply stops_at; cbn; auto]]. rewrite skip_blank by exact B3.
    cbn [skip_ws]. change (is_ws 44%N) with false. cbv iota. change (44 =? RBRACE)%N with false. change (44 =? COMMA)%N with true. cbv iota. destruct (IH' n r ltac:(lia)) as [H _]. now rewrite H.
Qed.

Lemma loads_with_exact s v : loads_with refloat object s = Some v <-> document refloat object s v.
Proof.
  unfold loads_with, document. split.
  - intros H. destruct (skip_split s) as (w & E & B). set (t := skip_ws s) in *. destruct (scan refloat object (S (length t)) t) as [[v' r]|] eqn:S; [|discriminate].
    destruct (skip_ws r) eqn:R; [|discriminate]. injection H as ->. apply scan_sound in S as (b & Eb & J). exists w, b, r. split; [now rewrite <- Eb|]. split; [exact B|]. split; [exact J|]. now apply skip_none.
  - intros (w & t & w' & -> & B & J & B'). rewrite skip_blank, (skip_json t v) by assumption.
    rewrite (proj1 scan_complete t v J) by (rewrite ?app_length; try lia; rewrite <- (app_nil_r w'); now apply stops_blank). now rewrite skip_all.
Qed.
End Values.

(** A dict: of members with the same key the last counts, and a key stands where it was first. *)
Definition last_member (k : str) (l : list (str * jv)) (v : jv) : Prop := exists a b, l = a ++ (k, v) :: b /\ ~ In k (map fst b).
Fixpoint first_keys (seen : list str) (l : list (str * jv)) : list str :=
  match l with
  | [] => []
  | (k, _) :: r => if in_dec (list_eq_dec N.eq_dec) k seen then first_keys seen r else k :: first_keys (k :: seen) r
  end.
Definition dict_with (l : list (str * jv)) (v : jv) : Prop :=
  exists d, v = JDict (map (fun p => (JKStr (fst p), snd p)) d) /\ map fst d = first_keys [] l /\ forall k x, In (k, x) d <-> last_member k l x.
Lemma first_keys_seen l : forall a b, (forall k, In k a <-> In k b) -> first_keys a l = first_keys b l.
Proof.
  induction l as [|[k v] l IH]; intros a b H; [reflexivity|]. cbn [first_keys].
  destruct (in_dec (list_eq_dec N.eq_dec) k a) as [A|A], (in_dec (list_eq_dec N.eq_dec) k b) as [B|B]; try (exfalso; apply H in A; contradiction) || (exfalso; apply H in B; contradiction).
  - now apply IH.
  - f_equal. apply IH. intros j. cbn [In]. now rewrite H.
Qed.
Lemma put_keys k v d : map fst (pair_put k v d) = if in_dec (list_eq_dec N.eq_dec) k (map fst d) then map fst d else map fst d ++ [k].
Proof.
  induction d as [|[j w] d IH]; [reflexivity|]. cbn [pair_put]. destruct (str_eqb_spec j k) as [->|NE].
  - cbn [map fst]. destruct (in_dec (list_eq_dec N.eq_dec) k (k :: map fst d)) as [_|X]; [reflexivity|]. destruct X. now left.
  - cbn [map fst]. rewrite IH. destruct (in_dec (list_eq_dec N.eq_dec) k (map fst d)) as [I|I], (in_dec (list_eq_dec N.eq_dec) k (j :: map fst d)) as [J|J]; try reflexivity.
    + destruct J. now right.
    + destruct J as [J|J]; contradiction.
Qed.
Lemma put_In k v d : NoDup (map fst d) -> forall j x, In (j, x) (pair_put k v d) <-> (j = k /\ x = v) \/ (j <> k /\ In (j, x) d).
Proof.
  induction d as [|[i w] d IH]; intros ND j x.
  - cbn [pair_put In]. split; [intros [H|[]]; injection H; auto|intros [[-> ->]|[_ []]]; now left].
  - cbn [map fst] in ND. inversion ND as [|? ? NI ND']; subst. cbn [pair_put]. destruct (str_eqb_spec i k) as [->|NE].
    + cbn [In]. split.
      * intros [H|H]; [injection H; auto|]. right. split; [|now right]. intros ->. apply NI. now apply (in_map fst) in H.
      * intros [[-> ->]|[N [H|H]]]; [now left|injection H; congruence|now right].
    + cbn [In]. rewrite (IH ND'). split.
      * intros [H|[H|[H1 H2]]]; [right|now left|right]; [injection H as <- <-; auto|auto].
      * intros [H|[H1 [H|H]]]; auto.
Qed.
Lemma last_member_cons k v l j x : last_member j ((k, v) :: l) x <-> last_member j l x \/ (j = k /\ x = v /\ ~ In j (map fst l)).
Proof.
  split.
  - intros ([|p a] & b & E & N).
    + injection E as -> -> ->. right. auto.
    + injection E as _ ->. left. now exists a, b.
  - intros [(a & b & -> & N)|(-> & -> & N)]; [exists ((k, v) :: a), b; auto|exists [], l; auto].
Qed.
Lemma fold_dict l : forall d, NoDup (map fst d) -> let r := fold_left (fun d p => pair_put (fst p) (snd p) d) l d in
  map fst r = map fst d ++ first_keys (map fst d) l /\ forall j x, In (j, x) r <-> last_member j l x \/ (In (j, x) d /\ ~ In j (map fst l)).
Proof.
  induction l as [|[k v] l IH]; intros d ND; cbn zeta; cbn [fold_left fst snd].
  - split; [cbn [first_keys]; now rewrite app_nil_r|]. intros j x. cbn [map In]. split; [auto|]. intros [(a & b & E & _)|[H _]]; [destruct a; discriminate|exact H].
  - pose proof (put_keys k v d) as PK. pose proof (put_In k v d ND) as PI. destruct (IH (pair_put k v d)) as [A B].
    { rewrite PK. destruct (in_dec (list_eq_dec N.eq_dec) k (map fst d)) as [I|I]; [exact ND|]. apply (Permutation_NoDup (Permutation_cons_append (map fst d) k)). now constructor. }
    split.
    + rewrite A, PK. cbn [first_keys]. destruct (in_dec (list_eq_dec N.eq_dec) k (map fst d)) as [I|I]; [reflexivity|]. rewrite <- app_assoc. cbn [app]. do 2 f_equal. apply first_keys_seen.
      intros j. rewrite in_app_iff. cbn [In]. tauto.
    + intros j x. rewrite B, PI, last_member_cons. cbn [map fst In]. split.
      * intros [H|[[[-> ->]|[N H]] NI]]; [auto|left; right; auto|]. right. split; [exact H|]. intros [X|X]; [congruence|contradiction].
      * intros [[H|(-> & -> & NI)]|[H NI]]; [auto|auto|]. right. split; [|auto]. right. split; [|exact H]. intros ->. apply NI. now left.
Qed.
Lemma dict_exact l : dict_with l (str_dict (dict_of l)).
Proof.
  destruct (fold_dict l [] (NoDup_nil _)) as [A B]. exists (dict_of l). split; [reflexivity|]. split; [exact A|]. intros k x. unfold dict_of. rewrite B. split; [intros [H|[[] _]]; exact H|auto].
Qed.

(** json.load reads exactly the documents of the grammar, with the value that the grammar gives; this includes every file that was edited by hand. *)
Theorem C146_read_exact : forall refloat, exists object, (forall l, dict_with l (object l)) /\
  forall s v, loads refloat s = Some v <-> document refloat object s v.
Proof. intros refloat. exists (fun l => str_dict (dict_of l)). split; [exact dict_exact|]. intros s v. apply loads_with_exact. Qed.
Print Assumptions C146_read_exact.

(** so a text has at most one value *)
Theorem C146_one_value : forall refloat object s v w, document refloat object s v -> document refloat object s w -> v = w.
Proof. intros refloat object s v w A B. apply loads_with_exact in A, B. congruence. Qed.
Print Assumptions C146_one_value.

(** ** Examples *)
Lemma read_iff s v : loads (fun t => t) s = Some v -> document (fun t => t) (fun l => str_dict (dict_of l)) s v.
Proof. apply loads_with_exact. Qed.
(** spaces, escapes in both cases, a pair of escapes for one character, a number with an exponent, and a key that stands twice *)
Example C146_example :
  document (fun t => t) (fun l => str_dict (dict_of l)) (lit " { ""a"":1 , ""b"" : [ -2.5E+3,null ,true], ""a"": ""\u00e4\uD83D\ude00\/\u0041""} ")
    (JDict [(JKStr (lit "a"), JStr [228; 128512; 47; 65]%N); (JKStr (lit "b"), JList [JFloat (lit "-2.5E+3"); JNone; JBool true])]).
Proof. apply read_iff. vm_compute. reflexivity. Qed.
(** texts that are refused: an escape that is none, a digit that is none, a number with a zero in front, a comma at the end, a key without quotes, two values, and a line break in a text *)
Example C146_refused : Forall (fun s => forall v, ~ document (fun t => t) (fun l => str_dict (dict_of l)) s v)
  [lit """\a"""; lit """\u00G0"""; lit "01"; lit "[1,]"; lit "{a:1}"; lit "1 2"; [34; 10; 34]%N; []; lit "1."; lit "+1"; lit "'a'"].
Proof. repeat constructor; intros v H; apply loads_with_exact in H; vm_compute in H; discriminate H. Qed.
(** half a pair is kept, and a pair with anything in between stays two characters *)
Example C146_halves : document (fun t => t) (fun l => str_dict (dict_of l)) (lit """\uD800x\uDC00""") (JStr [55296; 120; 56320]%N).
Proof. apply read_iff. vm_compute. reflexivity. Qed.
