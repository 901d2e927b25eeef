(** Reading back what was written. *)
From Verif Require Import PyStrFacts.
From Verif Require Export JsonSpec.
From Coq Require Import Lia ZifyN DecimalN.
From Coq Require Decimal.

Ltac Zify.zify_post_hook ::= Z.div_mod_to_equations.
Local Arguments N.div : simpl never.
Local Arguments N.modulo : simpl never.
Local Arguments N.add : simpl never.
Local Arguments N.mul : simpl never.
Local Arguments N.sub : simpl never.

(** ** Induction on values *)
Section Ind.
  Variable P : jv -> Prop.
  Hypothesis HNone : P JNone.
  Hypothesis HBool : forall b, P (JBool b).
  Hypothesis HInt : forall z, P (JInt z).
  Hypothesis HFloat : forall t, P (JFloat t).
  Hypothesis HStr : forall s, P (JStr s).
  Hypothesis HList : forall l, Forall P l -> P (JList l).
  Hypothesis HTuple : forall l, Forall P l -> P (JTuple l).
  Hypothesis HDict : forall d, Forall (fun kv => P (snd kv)) d -> P (JDict d).
  Hypothesis HOther : P JOther.
  Fixpoint jv_rect' (v : jv) : P v :=
    match v with
    | JNone => HNone | JBool b => HBool b | JInt z => HInt z | JFloat t => HFloat t | JStr s => HStr s | JOther => HOther
    | JList l => HList l ((fix go l := match l return Forall P l with [] => Forall_nil _ | v :: r => Forall_cons v (jv_rect' v) (go r) end) l)
    | JTuple l => HTuple l ((fix go l := match l return Forall P l with [] => Forall_nil _ | v :: r => Forall_cons v (jv_rect' v) (go r) end) l)
    | JDict d => HDict d ((fix go d := match d return Forall (fun kv => P (snd kv)) d with
                                       | [] => Forall_nil _
                                       | kv :: r => Forall_cons kv (jv_rect' (snd kv)) (go r) end) d)
    end.
End Ind.

(** ** Strings *)
Lemma hex_digit_value d : (d < 16)%N -> hex_value (hex_digit d) = Some d.
Proof.
  intros H. unfold hex_digit. destruct (N.ltb_spec d 10) as [L|L]; unfold hex_value, is_digit.
  - destruct (N.leb_spec 48 (48 + d)); [|lia]. destruct (N.leb_spec (48 + d) 57); [|lia]. cbn [andb]. f_equal. lia.
  - destruct (N.leb_spec 48 (87 + d)); [|lia]. destruct (N.leb_spec (87 + d) 57); [lia|]. cbn [andb].
    destruct (N.leb_spec 97 (87 + d)); [|lia]. destruct (N.leb_spec (87 + d) 102); [|lia]. cbn [andb]. f_equal. lia.
Qed.
Lemma read_hex4_hex4 n r : (n < 65536)%N -> read_hex4 (hex4 n ++ r) = Some (n, r).
Proof.
  intros H. unfold hex4. cbn [app]. unfold read_hex4. rewrite !hex_digit_value by (apply N.mod_lt; discriminate). f_equal. f_equal.
  replace (n / 4096)%N with (n / 16 / 16 / 16)%N by (now rewrite !N.div_div). replace (n / 256)%N with (n / 16 / 16)%N by (now rewrite !N.div_div).
  assert (n / 16 / 16 / 16 < 16)%N by (rewrite !N.div_div by discriminate; apply N.div_lt_upper_bound; [discriminate|exact H]).
  rewrite (N.mod_small (n / 16 / 16 / 16)) by assumption.
  pose proof (N.div_mod (n / 16 / 16) 16 ltac:(discriminate)). pose proof (N.div_mod (n / 16) 16 ltac:(discriminate)). pose proof (N.div_mod n 16 ltac:(discriminate)).
  set (d3 := (n / 16 / 16 / 16)%N) in *. set (d2 := ((n / 16 / 16) mod 16)%N) in *. set (m2 := (n / 16 / 16)%N) in *.
  set (d1 := ((n / 16) mod 16)%N) in *. set (m1 := (n / 16)%N) in *. set (d0 := (n mod 16)%N) in *. clearbody d0 d1 d2 d3 m1 m2. lia.
Qed.

(** what follows does not join with a high surrogate *)
Definition no_low (t : str) : Prop :=
  match t with
  | b :: u :: r => (b =? BSLASH)%N && (u =? 117)%N = true -> exists m q, read_hex4 r = Some (m, q) /\ is_low m = false
  | _ => True
  end.
Lemma read_u_escape n t : (n < 65536)%N -> (is_high n = true -> no_low t) -> read_u (hex4 n ++ t) = Some (n, t).
Proof.
  intros H HL. unfold read_u. rewrite read_hex4_hex4 by exact H. destruct (is_high n) eqn:EH; [|reflexivity].
  specialize (HL eq_refl). destruct t as [|b [|u r]]; try reflexivity. cbn [no_low] in HL.
  destruct ((b =? BSLASH)%N && (u =? 117)%N) eqn:E; [|reflexivity]. destruct (HL eq_refl) as (m & q & -> & ->). reflexivity.
Qed.
Lemma read_u_pair c t : (65536 <= c < 1114112)%N ->
  read_u (hex4 (55296 + (c - 65536) / 1024 mod 1024) ++ u_escape (56320 + (c - 65536) mod 1024) ++ t) = Some (c, t).
Proof.
  intros H. unfold read_u. rewrite read_hex4_hex4 by lia.
  assert (HI : is_high (55296 + (c - 65536) / 1024 mod 1024) = true).
  { unfold is_high. rewrite andb_true_iff, !N.leb_le. lia. }
  rewrite HI. unfold u_escape. cbn [app]. cbn [N.eqb andb BSLASH Pos.eqb]. rewrite read_hex4_hex4 by lia.
  assert (LO : is_low (56320 + (c - 65536) mod 1024) = true) by (unfold is_low; rewrite andb_true_iff, !N.leb_le; lia).
  rewrite LO. f_equal. f_equal. lia.
Qed.

Lemma esc_char_length c : 1 <= length (esc_char c).
Proof.
  unfold esc_char. repeat match goal with |- context [if ?b then _ else _] => destruct b end; cbn; lia.
Qed.

Lemma scan_char n c t : (c < 1114112)%N -> (is_high c = true -> no_low t) ->
  scan_string (S n) (esc_char c ++ t) = match scan_string n t with Some (s, q) => Some (c :: s, q) | None => None end.
Proof.
  intros HC HL. unfold esc_char.
  destruct (N.eqb_spec c QUOTE) as [E1|N1]; [subst; reflexivity|].
  destruct (N.eqb_spec c BSLASH) as [E2|N2]; [subst; reflexivity|].
  destruct (N.eqb_spec c NL) as [E3|N3]; [subst; reflexivity|].
  destruct (N.eqb_spec c CR) as [E4|N4]; [subst; reflexivity|].
  destruct (N.eqb_spec c TAB) as [E5|N5]; [subst; reflexivity|].
  destruct (N.eqb_spec c 12) as [E6|N6]; [subst; reflexivity|].
  destruct (N.eqb_spec c 8) as [E7|N7]; [subst; reflexivity|].
  destruct (N.leb_spec 32 c) as [L|L]; [destruct (N.leb_spec c 126) as [L2|L2]|].
  - cbn [andb app scan_string].
    destruct (N.eqb_spec c QUOTE); [contradiction|]. destruct (N.eqb_spec c BSLASH); [contradiction|].
    destruct (N.ltb_spec c 32); [lia|]. reflexivity.
  - cbn [andb]. destruct (N.ltb_spec c 65536) as [L3|L3].
    + unfold u_escape. change (scan_string (S n) ((BSLASH :: 117%N :: hex4 c) ++ t))
        with (match read_u (hex4 c ++ t) with Some (x, r2) => match scan_string n r2 with Some (t0, q) => Some (x :: t0, q) | None => None end | None => None end).
      rewrite read_u_escape by assumption. reflexivity.
    + rewrite <- app_assoc. unfold u_escape at 1.
      match goal with |- scan_string _ ((_ :: _ :: ?h) ++ ?r) = _ => change (scan_string (S n) ((BSLASH :: 117%N :: h) ++ r))
        with (match read_u (h ++ r) with Some (x, r2) => match scan_string n r2 with Some (t0, q) => Some (x :: t0, q) | None => None end | None => None end) end.
      rewrite read_u_pair by lia. reflexivity.
  - cbn [andb]. destruct (N.ltb_spec c 65536) as [L3|L3]; [|lia].
    unfold u_escape. change (scan_string (S n) ((BSLASH :: 117%N :: hex4 c) ++ t))
      with (match read_u (hex4 c ++ t) with Some (x, r2) => match scan_string n r2 with Some (t0, q) => Some (x :: t0, q) | None => None end | None => None end).
    rewrite read_u_escape by assumption. reflexivity.
Qed.
(** after a high surrogate: the escape of a character that is not a low one *)
Lemma no_low_esc d t : is_low d = false -> no_low (esc_char d ++ t).
Proof.
  intros HD. unfold esc_char.
  destruct (N.eqb_spec d QUOTE) as [E1|N1]; [cbn; easy|].
  destruct (N.eqb_spec d BSLASH) as [E2|N2]; [cbn; easy|].
  destruct (N.eqb_spec d NL) as [E3|N3]; [cbn; easy|].
  destruct (N.eqb_spec d CR) as [E4|N4]; [cbn; easy|].
  destruct (N.eqb_spec d TAB) as [E5|N5]; [cbn; easy|].
  destruct (N.eqb_spec d 12) as [E6|N6]; [cbn; easy|].
  destruct (N.eqb_spec d 8) as [E7|N7]; [cbn; easy|].
  destruct ((32 <=? d)%N && (d <=? 126)%N).
  - cbn [app]. destruct t as [|u r]; [exact I|]. unfold no_low. destruct (N.eqb_spec d BSLASH); [contradiction|]. easy.
  - destruct (N.ltb_spec d 65536) as [L3|L3].
    + unfold u_escape. cbn [app]. intros _. exists d, t. split; [now apply read_hex4_hex4|exact HD].
    + rewrite <- app_assoc. unfold u_escape at 1. cbn [app]. intros _. eexists _, _. split; [apply read_hex4_hex4; lia|].
      unfold is_low. apply andb_false_iff. left. apply N.leb_gt. lia.
Qed.
Lemma scan_escaped s : text s -> forall n rest, length (flat_map esc_char s) < n ->
  scan_string n (flat_map esc_char s ++ QUOTE :: rest) = Some (s, rest).
Proof.
  intros [HC HP]. induction s as [|c s IH]; intros n rest L; cbn [flat_map app length] in *.
  - destruct n; [lia|]. reflexivity.
  - rewrite app_length in L. pose proof (esc_char_length c). destruct n as [|n]; [lia|]. rewrite <- app_assoc.
    inversion HC; subst. destruct HP as [HP1 HP2]. rewrite scan_char; [|assumption|].
    + rewrite IH; [reflexivity|assumption|assumption|lia].
    + intros HH. destruct s as [|d s]; [cbn; destruct rest; easy|]. cbn [flat_map]. rewrite <- app_assoc. apply no_low_esc.
      destruct (is_low d) eqn:EL; [|reflexivity]. exfalso. apply HP1. now split.
Qed.
Lemma json_str_length s : length (json_str s) = S (S (length (flat_map esc_char s))).
Proof. unfold json_str. cbn [length]. rewrite app_length. cbn. lia. Qed.

Ltac bad D := exfalso; revert D; clear; cbv; intuition congruence.

(** ** Numbers *)
Definition stops (rest : str) : Prop :=
  match rest with
  | c :: _ => is_digit c = false /\ c <> DOT /\ c <> 101%N /\ c <> 69%N
  | [] => True
  end.
Lemma span_digits d rest : Forall (fun c => is_digit c = true) d -> stops rest -> span is_digit (d ++ rest) = (d, rest).
Proof.
  intros H S. induction H as [|c d E H IH].
  - destruct rest as [|r rest]; [reflexivity|]. cbn [app span]. destruct S as [-> _]. reflexivity.
  - cbn [app span]. rewrite E, IH. reflexivity.
Qed.
Lemma span_digits' d rest : Forall (fun c => is_digit c = true) d -> match rest with c :: _ => is_digit c = false | [] => True end -> span is_digit (d ++ rest) = (d, rest).
Proof.
  intros H S. induction H as [|c d E H IH].
  - destruct rest as [|r rest]; [reflexivity|]. cbn [app span]. rewrite S. reflexivity.
  - cbn [app span]. rewrite E, IH. reflexivity.
Qed.
Lemma uint_digits d : Forall (fun c => is_digit c = true) (uint_str d).
Proof. induction d; cbn [uint_str]; constructor; auto. Qed.
Lemma str_uint_str d : str_uint (uint_str d) = d.
Proof. induction d; cbn [uint_str str_uint]; rewrite ?IHd; reflexivity. Qed.
Lemma read_show_N n : read_N (show_N n) = n.
Proof. unfold read_N, show_N. rewrite str_uint_str. apply Unsigned.of_to. Qed.
Lemma nzhead_D0 d d' : Decimal.nzhead d <> Decimal.D0 d'.
Proof. induction d; cbn; try congruence. Qed.
Lemma show_N_shape n : exists c r, show_N n = c :: r /\ is_digit c = true /\ (c = 48%N -> r = []).
Proof.
  unfold show_N. pose proof (Unsigned.to_of (N.to_uint n)) as U. rewrite Unsigned.of_to in U.
  destruct (N.to_uint n) as [|d|d|d|d|d|d|d|d|d|d] eqn:E; cbn [uint_str];
    try (eexists _, _; split; [reflexivity|split; [reflexivity|intros X; discriminate X]]).
  - discriminate U.
  - eexists _, _; split; [reflexivity|split; [reflexivity|intros _]]. unfold Decimal.unorm in U. cbn [Decimal.nzhead] in U. destruct (Decimal.nzhead d) eqn:EN; try discriminate U.
    + injection U as ->. reflexivity.
    + exfalso. exact (nzhead_D0 d _ EN).
Qed.
Lemma show_N_digits n : Forall (fun c => is_digit c = true) (show_N n).
Proof. apply uint_digits. Qed.

Definition is_int (i : str) : Prop := digits i /\ (i = [48%N] \/ hd 0%N i <> 48%N).
Lemma take_int_app i rest : is_int i -> match rest with c :: _ => is_digit c = false | [] => True end -> take_int (i ++ rest) = (i, rest).
Proof.
  intros [[NE D] H] S. destruct i as [|c i]; [congruence|]. cbn [app take_int]. destruct H as [H|H].
  - injection H as -> ->. reflexivity.
  - cbn [hd] in H. destruct (N.eqb_spec c 48); [contradiction|]. exact (span_digits' (c :: i) rest D S).
Qed.
Lemma show_N_int n : is_int (show_N n).
Proof.
  pose proof (show_N_digits n) as D. destruct (show_N_shape n) as (c & r & E & D1 & Z). rewrite E in *. split; [split; [congruence|exact D]|].
  destruct (N.eq_dec c 48) as [->|NE]; [left; now rewrite Z|right; exact NE].
Qed.
Lemma digit_not c : is_digit c = true -> (48 <= c <= 57)%N.
Proof. unfold is_digit. rewrite andb_true_iff, !N.leb_le. lia. Qed.
Lemma take_minus_digit i rest : digits i -> take_minus (i ++ rest) = ([], i ++ rest).
Proof.
  intros [NE D]. destruct i as [|c i]; [congruence|]. cbn [app take_minus]. inversion D as [|? ? DC]; subst. apply digit_not in DC.
  destruct (N.eqb_spec c MINUS) as [->|]; [bad DC|reflexivity].
Qed.
Lemma stops_frac rest : stops rest -> take_frac rest = ([], rest).
Proof. destruct rest as [|c r]; [reflexivity|]. intros (_ & ND & _). cbn [take_frac]. destruct (N.eqb_spec c DOT); [contradiction|reflexivity]. Qed.
Lemma stops_exp rest : stops rest -> take_exp rest = ([], rest).
Proof.
  destruct rest as [|c r]; [reflexivity|]. intros (_ & _ & N1 & N2). cbn [take_exp].
  destruct (N.eqb_spec c 101); [contradiction|]. destruct (N.eqb_spec c 69); [contradiction|reflexivity].
Qed.
Lemma stops_digit rest : stops rest -> match rest with c :: _ => is_digit c = false | [] => True end.
Proof. destruct rest; [easy|]. now intros [H _]. Qed.

Section Reading.
  Variable refloat : str -> str.

  Lemma scan_int i rest : is_int i -> stops rest -> scan_number refloat (i ++ rest) = Some (JInt (Z.of_N (read_N i)), rest).
  Proof.
    intros I S. unfold scan_number. rewrite take_minus_digit by apply I. rewrite take_int_app by (first [assumption | now apply stops_digit]).
    destruct I as [[NE _] _]. destruct i as [|c i]; [congruence|]. rewrite stops_frac, stops_exp by assumption. reflexivity.
  Qed.
  Lemma scan_neg i rest : is_int i -> stops rest -> scan_number refloat (MINUS :: i ++ rest) = Some (JInt (Z.opp (Z.of_N (read_N i))), rest).
  Proof.
    intros I S. unfold scan_number. cbn [take_minus]. rewrite N.eqb_refl. rewrite take_int_app by (first [assumption | now apply stops_digit]).
    destruct I as [[NE _] _]. destruct i as [|c i]; [congruence|]. rewrite stops_frac, stops_exp by assumption. reflexivity.
  Qed.
  Lemma scan_show z rest : stops rest -> scan_number refloat (show_Z z ++ rest) = Some (JInt z, rest).
  Proof.
    intros S. unfold show_Z. destruct z as [|p|p].
    - rewrite scan_int by (auto using show_N_int). now rewrite read_show_N.
    - rewrite scan_int by (auto using show_N_int). now rewrite read_show_N.
    - change ((MINUS :: show_N (Npos p)) ++ rest) with (MINUS :: show_N (Npos p) ++ rest). rewrite scan_neg by (auto using show_N_int). now rewrite read_show_N.
  Qed.

  (** the grammar of floats *)
  Lemma take_frac_digits d rest : digits d -> match rest with c :: _ => is_digit c = false | [] => True end -> take_frac (DOT :: d ++ rest) = (DOT :: d, rest).
  Proof.
    intros [NE D] S. cbn [take_frac]. rewrite N.eqb_refl. rewrite span_digits' by assumption. destruct d; [congruence|reflexivity].
  Qed.
  Lemma take_exp_digits c g d rest : (c = 101%N \/ c = 69%N) -> (g = [] \/ g = [PLUS] \/ g = [MINUS]) -> digits d -> stops rest ->
    take_exp (c :: (g ++ d) ++ rest) = (c :: g ++ d, rest).
  Proof.
    intros HC HG [NE D] S. cbn [take_exp]. assert (E : ((c =? 101) || (c =? 69))%N = true) by (destruct HC as [-> | -> ]; reflexivity). rewrite E.
    assert (T : take_sign ((g ++ d) ++ rest) = (g, d ++ rest)).
    { destruct HG as [-> |[-> | -> ]]; [|reflexivity|reflexivity]. destruct d as [|x d]; [congruence|]. cbn [app take_sign].
      inversion D as [|? ? DX]; subst. apply digit_not in DX. destruct (N.eqb_spec x PLUS) as [EX|]; [rewrite EX in DX; bad DX|].
      destruct (N.eqb_spec x MINUS) as [EX|]; [rewrite EX in DX; bad DX|reflexivity]. }
    rewrite T. rewrite span_digits by assumption. destruct d; [congruence|reflexivity].
  Qed.
  Lemma scan_float t rest : float_repr refloat t -> t <> lit "nan" -> t <> lit "inf" -> t <> lit "-inf" -> stops rest ->
    scan_number refloat (t ++ rest) = Some (JFloat t, rest) /\
    exists c r, t = c :: r /\ (is_digit c = true \/ (c = MINUS /\ exists d r', r = d :: r' /\ is_digit d = true)).
  Proof.
    intros [H|[H|[H|(RT & m & i & f & e & ET & HM & DI & HI & HF & HE & FE)]]] N1 N2 N3 S; try contradiction.
    assert (F : forall s, match s with c :: _ => is_digit c = false | [] => True end -> f <> [] -> take_frac (f ++ s) = (f, s)).
    { intros s HS NF. destruct HF as [HF|(d & -> & DD)]; [contradiction|]. exact (take_frac_digits d s DD HS). }
    assert (ES : take_exp (e ++ rest) = (e, rest)).
    { destruct HE as [-> |(c & g & d & -> & HC & HG & DD)]; [now apply stops_exp|]. exact (take_exp_digits c g d rest HC HG DD S). }
    assert (EN : match e ++ rest with c :: _ => is_digit c = false | [] => True end).
    { destruct HE as [-> |(c & g & d & -> & HC & HG & DD)]; [now apply stops_digit|]. cbn [app]. destruct HC as [-> | -> ]; reflexivity. }
    assert (FS : take_frac (f ++ e ++ rest) = (f, e ++ rest)).
    { destruct HF as [-> |(d & -> & DD)]; [|apply F; [exact EN|discriminate]]. cbn [app].
      destruct HE as [-> |(c & g & d & -> & HC & HG & DD)]; [now apply stops_frac|]. cbn [app take_frac].
      destruct (N.eqb_spec c DOT) as [EX|]; [destruct HC; subst; discriminate|reflexivity]. }
    assert (FN : match f ++ e ++ rest with c :: _ => is_digit c = false | [] => True end).
    { destruct HF as [-> |(d & -> & DD)]; [exact EN|reflexivity]. }
    split.
    - unfold scan_number.
      assert (TM : take_minus (t ++ rest) = (m, i ++ f ++ e ++ rest)).
      { rewrite ET. rewrite <- !app_assoc. destruct HM as [-> | -> ]; [cbn [app]; now apply take_minus_digit|reflexivity]. }
      rewrite TM. rewrite take_int_app; [|split; assumption|exact FN]. destruct i as [|ci i]; [destruct DI; congruence|].
      rewrite FS, ES.
      assert (G : JFloat (refloat (m ++ (ci :: i) ++ f ++ e)) = JFloat t) by (rewrite <- ET, RT; reflexivity).
      destruct f as [|f0 f]; [destruct e as [|e0 e]; [destruct FE; congruence|]|]; rewrite G; reflexivity.
    - destruct DI as [NI DI]. destruct i as [|ci i]; [congruence|]. inversion DI as [|? ? DC]; subst.
      destruct HM as [-> | -> ]; cbn [app]; eexists _, _; (split; [reflexivity|]); [left; exact DC|right]. split; [reflexivity|]. eauto.
  Qed.

  (** ** Values *)
  Variable object : list (str * jv) -> jv.
  Lemma strip_no p c s : (hd 0%N p =? c)%N = false -> p <> [] -> strip_prefix p (c :: s) = None.
  Proof. intros H NE. unfold strip_prefix. destruct p as [|x p]; [congruence|]. cbn [hd] in H. cbn [starts_with]. rewrite H. reflexivity. Qed.
  Lemma digit_neq c x : is_digit c = true -> is_digit x = false -> (x =? c)%N = false.
  Proof. intros A B. apply N.eqb_neq. congruence. Qed.
  Lemma scan_atom_number s : (exists c r, s = c :: r /\ (is_digit c = true \/ (c = MINUS /\ exists d r', r = d :: r' /\ is_digit d = true))) ->
    scan_atom refloat s = scan_number refloat s.
  Proof.
    intros (c & r & -> & H). unfold scan_atom.
    assert (K : forall x, is_digit x = false -> x <> MINUS -> (x =? c)%N = false).
    { intros x DX NX. destruct H as [H|[-> _]]; [now apply digit_neq|]. now apply N.eqb_neq. }
    rewrite (strip_no (lit "null")), (strip_no (lit "true")), (strip_no (lit "false")), (strip_no (lit "NaN")), (strip_no (lit "Infinity"))
      by (discriminate || (apply K; [reflexivity|discriminate])).
    assert (E : strip_prefix (lit "-Infinity") (c :: r) = None).
    { unfold strip_prefix. change (starts_with (lit "-Infinity") (c :: r)) with ((45 =? c)%N && starts_with (lit "Infinity") r).
      destruct H as [H|[-> (d & r' & -> & D)]]; [now rewrite (digit_neq c 45%N H eq_refl)|].
      change (starts_with (lit "Infinity") (d :: r')) with ((73 =? d)%N && starts_with (lit "nfinity") r'). now rewrite (digit_neq d 73%N D eq_refl), andb_false_r. }
    now rewrite E.
  Qed.

  (** a text that can start a value: what scan does with it *)
  Definition opens (t : str) : Prop := match t with c :: _ => is_ws c = false /\ c <> RBRACK /\ c <> RBRACE | [] => False end.
  Lemma skip_opens t s : opens t -> skip_ws (t ++ s) = t ++ s.
  Proof. destruct t as [|c t]; [easy|]. intros [H _]. cbn [app skip_ws]. now rewrite H. Qed.
  Lemma skip_repeat n s : skip_ws (repeat SP n ++ s) = skip_ws s.
  Proof. induction n as [|n IH]; [reflexivity|]. cbn [repeat app skip_ws]. exact IH. Qed.
  Lemma skip_new_line ind l s : skip_ws (new_line ind l ++ s) = skip_ws s.
  Proof. destruct ind; [|reflexivity]. cbn [new_line app skip_ws]. apply skip_repeat. Qed.
  Lemma digit_opens c r : is_digit c = true -> opens (c :: r).
  Proof.
    intros D. apply digit_not in D. cbn [opens]. split; [|split; intros ->; bad D]. unfold is_ws.
    destruct (N.eqb_spec c SP) as [-> |]; [bad D|]. destruct (N.eqb_spec c TAB) as [-> |]; [bad D|].
    destruct (N.eqb_spec c NL) as [-> |]; [bad D|]. destruct (N.eqb_spec c CR) as [-> |]; [bad D|]. reflexivity.
  Qed.
  Lemma num_head_opens t : (exists c r, t = c :: r /\ (is_digit c = true \/ (c = MINUS /\ exists d r', r = d :: r' /\ is_digit d = true))) -> opens t.
  Proof. intros (c & r & -> & [D|[-> _]]); [now apply digit_opens|]. cbn. repeat split; discriminate. Qed.
  Lemma show_Z_head z : exists c r, show_Z z = c :: r /\ (is_digit c = true \/ (c = MINUS /\ exists d r', r = d :: r' /\ is_digit d = true)).
  Proof.
    unfold show_Z. destruct z as [|p|p].
    - destruct (show_N_shape (Z.to_N 0)) as (c & r & E & D & _). eauto.
    - destruct (show_N_shape (Z.to_N (Zpos p))) as (c & r & E & D & _). eauto.
    - destruct (show_N_shape (Npos p)) as (c & r & E & D & _). exists MINUS, (show_N (Npos p)). split; [reflexivity|]. right. split; [reflexivity|]. eauto.
  Qed.

  (** scan of an atom through the first tests *)
  Lemma scan_to_atom n s : match s with c :: _ => c <> QUOTE /\ c <> LBRACK /\ c <> LBRACE | [] => False end ->
    scan refloat object (S n) s = scan_atom refloat s.
  Proof.
    destruct s as [|c s]; [easy|]. intros (A & B & C). cbn [scan]. destruct (N.eqb_spec c QUOTE); [contradiction|].
    destruct (N.eqb_spec c LBRACK); [contradiction|]. destruct (N.eqb_spec c LBRACE); [contradiction|]. reflexivity.
  Qed.
  Lemma num_head_atom t s : (exists c r, t = c :: r /\ (is_digit c = true \/ (c = MINUS /\ exists d r', r = d :: r' /\ is_digit d = true))) ->
    match t ++ s with c :: _ => c <> QUOTE /\ c <> LBRACK /\ c <> LBRACE | [] => False end.
  Proof.
    intros (c & r & -> & [D|[-> _]]); cbn [app]; [|repeat split; discriminate]. apply digit_not in D. repeat split; intros ->; bad D.
  Qed.
  Lemma num_head_app t s : (exists c r, t = c :: r /\ (is_digit c = true \/ (c = MINUS /\ exists d r', r = d :: r' /\ is_digit d = true))) ->
    exists c r, t ++ s = c :: r /\ (is_digit c = true \/ (c = MINUS /\ exists d r', r = d :: r' /\ is_digit d = true)).
  Proof.
    intros (c & r & -> & [D|[-> (d & r' & -> & D)]]); cbn [app]; [eauto|]. eexists _, _. split; [reflexivity|]. right. split; [reflexivity|]. eauto.
  Qed.

  Lemma json_float_cases t : float_repr refloat t ->
    (t = lit "nan" /\ json_float t = lit "NaN") \/ (t = lit "inf" /\ json_float t = lit "Infinity") \/ (t = lit "-inf" /\ json_float t = lit "-Infinity") \/
    (t <> lit "nan" /\ t <> lit "inf" /\ t <> lit "-inf" /\ json_float t = t).
  Proof.
    intros _. unfold json_float. destruct (str_eqb_spec t (lit "nan")) as [-> |N1]; [auto|].
    destruct (str_eqb_spec t (lit "inf")) as [-> |N2]; [auto|]. destruct (str_eqb_spec t (lit "-inf")) as [-> |N3]; [auto|]. auto 8.
  Qed.

  (** the head of every text written *)
  Lemma dumps_opens ind v : value_ok refloat v -> forall level t, dumps ind level v = Some t -> opens t.
  Proof.
    intros OK level t E. destruct v as [| b | z | tx | s | l | l | d |]; cbn [dumps] in E.
    - injection E as <-. repeat split; discriminate.
    - injection E as <-. destruct b; repeat split; discriminate.
    - injection E as <-. apply num_head_opens, show_Z_head.
    - injection E as <-. cbn [value_ok] in OK. destruct (json_float_cases tx OK) as [[_ -> ]|[[_ -> ]|[[_ -> ]|(N1 & N2 & N3 & -> )]]];
        try (repeat split; discriminate). apply num_head_opens. now apply (scan_float tx [] OK N1 N2 N3 I).
    - injection E as <-. repeat split; discriminate.
    - destruct (all_of _) as [[|i items]|]; try discriminate; injection E as <-; repeat split; discriminate.
    - destruct (all_of _) as [[|i items]|]; try discriminate; injection E as <-; repeat split; discriminate.
    - destruct (all_of _) as [[|i items]|]; try discriminate; injection E as <-; repeat split; discriminate.
    - discriminate.
  Qed.

  Definition reads (v : jv) : Prop := value_ok refloat v -> forall ind level t, dumps ind level v = Some t ->
    forall rest n, stops rest -> length t <= n -> scan refloat object n (t ++ rest) = Some (back object v, rest).

  Lemma sep_stops ind l s : stops (item_sep ind l ++ s).
  Proof. destruct ind; cbn; repeat split; discriminate. Qed.
  Lemma nl_stops ind l c s : stops (c :: s) -> stops (new_line ind l ++ c :: s).
  Proof. destruct ind; cbn; [|easy]. intros _. repeat split; discriminate. Qed.
  Lemma sep_length ind l : 1 <= length (item_sep ind l).
  Proof. destruct ind; cbn; lia. Qed.
  Lemma skip_sep ind l s : exists q, skip_ws (item_sep ind l ++ s) = COMMA :: q /\ skip_ws q = skip_ws s.
  Proof.
    destruct ind as [n|]; cbn [item_sep app skip_ws].
    - exists (NL :: repeat SP (n * l) ++ s). split; [reflexivity|]. cbn [skip_ws]. apply skip_repeat.
    - exists (SP :: s). now split.
  Qed.

  Lemma scan_items_read ind level l : Forall reads l -> fold_right (fun v P => value_ok refloat v /\ P) True l ->
    forall items, all_of (map (dumps ind (S level)) l) = Some items -> items <> [] ->
    forall rest n, length (join_with (item_sep ind (S level)) items) < n ->
    scan_items refloat object n (join_with (item_sep ind (S level)) items ++ new_line ind level ++ RBRACK :: rest) = Some (map (back object) l, rest).
  Proof.
    induction 1 as [|v l RV RL IH]; intros OK items E NE rest n L.
    - cbn in E. injection E as <-. congruence.
    - cbn [map all_of fold_right] in E, OK. destruct OK as [OKv OKl]. destruct (dumps ind (S level) v) as [t|] eqn:ET; [|discriminate].
      destruct (all_of (map (dumps ind (S level)) l)) as [items'|] eqn:EI; [|discriminate]. injection E as <-.
      destruct n as [|n]; [lia|]. cbn [scan_items].
      destruct items' as [|i2 items'].
      + cbn [join_with] in *. rewrite (RV OKv _ _ _ ET); [|apply nl_stops; cbn; repeat split; discriminate|lia].
        rewrite skip_new_line. cbn [skip_ws is_ws]. change (is_ws RBRACK) with false. cbn [N.eqb]. rewrite N.eqb_refl.
        assert (EL : l = []) by (destruct l as [|v2 l]; [reflexivity|]; cbn [map all_of] in EI; destruct (dumps ind (S level) v2); [|discriminate];
          destruct (all_of (map (dumps ind (S level)) l)); discriminate). subst l. reflexivity.
      + change (join_with (item_sep ind (S level)) (t :: i2 :: items')) with (t ++ item_sep ind (S level) ++ join_with (item_sep ind (S level)) (i2 :: items')) in *.
        rewrite !app_length in L. pose proof (sep_length ind (S level)).
        rewrite <- !app_assoc. rewrite (RV OKv _ _ _ ET); [|apply sep_stops|lia].
        destruct (skip_sep ind (S level) (join_with (item_sep ind (S level)) (i2 :: items') ++ new_line ind level ++ RBRACK :: rest)) as (q & -> & EQ).
        change (COMMA =? RBRACK)%N with false. rewrite N.eqb_refl. rewrite EQ.
        assert (OP : skip_ws (join_with (item_sep ind (S level)) (i2 :: items') ++ new_line ind level ++ RBRACK :: rest) =
                     join_with (item_sep ind (S level)) (i2 :: items') ++ new_line ind level ++ RBRACK :: rest).
        { destruct l as [|v2 l]; [discriminate|]. cbn [map all_of] in EI. destruct (dumps ind (S level) v2) as [t2|] eqn:E2; [|discriminate].
          destruct (all_of (map (dumps ind (S level)) l)); [|discriminate]. injection EI as -> ->. destruct OKl as [OK2 _].
          pose proof (dumps_opens _ _ OK2 _ _ E2) as O2. destruct i2 as [|c2 i2]; [easy|]. apply (skip_opens (join_with _ ((c2 :: i2) :: items'))).
          cbn [join_with]. destruct items'; exact O2. }
        rewrite OP. rewrite (IH OKl _ eq_refl) by (try discriminate; lia). reflexivity.
  Qed.

  Lemma key_text_ok k s : key_ok refloat k -> key_str k = Some s -> text s.
  Proof.
    assert (A : forall s, Forall (fun c => (32 <= c <= 126)%N) s -> text s).
    { intros x H. split; [eapply Forall_impl; [|exact H]; cbn; intros; lia|]. induction H as [|c r HC HR IHR]; [exact I|]. split; [|exact IHR].
      destruct r as [|d r]; [exact I|]. intros [HH _]. unfold is_high in HH. apply andb_true_iff in HH. destruct HH as [HH _]. apply N.leb_le in HH. lia. }
    assert (D : forall s, Forall (fun c => is_digit c = true) s -> Forall (fun c => (32 <= c <= 126)%N) s).
    { intros x H. eapply Forall_impl; [|exact H]. cbn. intros c DC. apply digit_not in DC. lia. }
    intros OK E. destruct k as [x|z|t|b| |]; cbn in E; try discriminate; injection E as <-.
    - exact OK.
    - apply A. unfold show_Z. destruct z; try (apply D, show_N_digits). constructor; [cbv; split; discriminate|apply D, show_N_digits].
    - cbn in OK. apply A. destruct (json_float_cases t OK) as [[_ -> ]|[[_ -> ]|[[_ -> ]|(N1 & N2 & N3 & -> )]]];
        try (repeat constructor; cbv; discriminate).
      destruct OK as [H|[H|[H|(RT & m & i & f & e & ET & HM & [_ DI] & HI & HF & HE & FE)]]]; try contradiction. rewrite ET.
      apply Forall_app. split.
      + destruct HM as [-> | -> ]; repeat constructor; cbv; discriminate.
      + apply Forall_app. split; [now apply D|]. apply Forall_app. split.
        * destruct HF as [-> |(d & -> & [_ DD])]; [constructor|]. constructor; [cbv; split; discriminate|now apply D].
        * destruct HE as [-> |(c & g & d & -> & HC & HG & [_ DD])]; [constructor|]. constructor; [destruct HC as [-> | -> ]; cbv; split; discriminate|].
          apply Forall_app. split; [|now apply D]. destruct HG as [-> |[-> | -> ]]; repeat constructor; cbv; discriminate.
    - apply A. destruct b; repeat constructor; cbv; discriminate.
    - apply A. repeat constructor; cbv; discriminate.
  Qed.

  Definition pair_text ind level (kv : jkey * jv) : option str :=
    match key_str (fst kv), dumps ind (S level) (snd kv) with
    | Some k, Some t => Some (json_str k ++ [COLON; SP] ++ t)
    | _, _ => None
    end.
  Lemma scan_pairs_read ind level d : Forall (fun kv => reads (snd kv)) d ->
    fold_right (fun kv P => (key_ok refloat (fst kv) /\ value_ok refloat (snd kv)) /\ P) True d ->
    forall items, all_of (map (pair_text ind level) d) = Some items -> items <> [] ->
    forall rest n, length (join_with (item_sep ind (S level)) items) < n ->
    scan_pairs refloat object n (join_with (item_sep ind (S level)) items ++ new_line ind level ++ RBRACE :: rest) =
      Some (map (fun kv => (key_back (fst kv), back object (snd kv))) d, rest).
  Proof.
    induction 1 as [|[k v] d RV RL IH]; intros OK items E NE rest n L.
    - cbn in E. injection E as <-. congruence.
    - cbn [map all_of fold_right fst snd] in E, OK, RV. destruct OK as [[OKk OKv] OKl]. unfold pair_text at 1 in E. cbn [fst snd] in E.
      destruct (key_str k) as [ks|] eqn:EK; [|discriminate]. destruct (dumps ind (S level) v) as [t|] eqn:ET; [|discriminate].
      destruct (all_of (map (pair_text ind level) d)) as [items'|] eqn:EI; [|discriminate].
      remember (json_str ks ++ [COLON; SP] ++ t) as kt eqn:EKT. injection E as <-.
      pose proof (key_text_ok k ks OKk EK) as TK. pose proof (dumps_opens _ _ OKv _ _ ET) as OT.
      assert (KB : key_back k = ks) by (unfold key_back; now rewrite EK).
      destruct n as [|n]; [lia|].
      assert (STEP : forall s, length kt <= n -> stops s ->
        scan_pairs refloat object (S n) (kt ++ s) =
        match skip_ws s with
        | [] => None
        | e :: q1 => if (e =? RBRACE)%N then Some ([(ks, back object v)], q1)
                     else if (e =? COMMA)%N then match scan_pairs refloat object n (skip_ws q1) with Some (l, q') => Some ((ks, back object v) :: l, q') | None => None end
                     else None
        end).
      { intros s LS SS. subst kt. rewrite !app_length, json_str_length in LS. cbn [length] in LS.
        rewrite <- !app_assoc. unfold json_str. change ((QUOTE :: flat_map esc_char ks ++ [QUOTE]) ++ [COLON; SP] ++ t ++ s)
          with (QUOTE :: (flat_map esc_char ks ++ [QUOTE]) ++ [COLON; SP] ++ t ++ s). rewrite <- app_assoc. cbn [scan_pairs]. rewrite N.eqb_refl.
        change ([QUOTE] ++ [COLON; SP] ++ t ++ s) with (QUOTE :: [COLON; SP] ++ t ++ s).
        rewrite (scan_escaped ks TK) by lia. change (skip_ws ([COLON; SP] ++ t ++ s)) with (COLON :: SP :: t ++ s). cbv iota beta. rewrite N.eqb_refl.
        change (skip_ws (SP :: t ++ s)) with (skip_ws (t ++ s)). rewrite (skip_opens t s OT).
        rewrite (RV OKv _ _ _ ET) by (assumption || lia). reflexivity. }
      destruct items' as [|i2 items'].
      + cbn [join_with] in *. rewrite STEP; [|lia|apply nl_stops; cbn; repeat split; discriminate].
        rewrite skip_new_line. cbn [skip_ws]. change (is_ws RBRACE) with false. cbv iota. rewrite N.eqb_refl.
        assert (EL : d = []) by (destruct d as [|v2 d]; [reflexivity|]; cbn [map all_of] in EI; destruct (pair_text ind level v2); [|discriminate];
          destruct (all_of (map (pair_text ind level) d)); discriminate). subst d. cbn [map fst snd]. rewrite KB. reflexivity.
      + change (join_with (item_sep ind (S level)) (kt :: i2 :: items')) with (kt ++ item_sep ind (S level) ++ join_with (item_sep ind (S level)) (i2 :: items')) in *.
        rewrite !app_length in L. pose proof (sep_length ind (S level)).
        rewrite <- !app_assoc. rewrite STEP; [|lia|apply sep_stops].
        destruct (skip_sep ind (S level) (join_with (item_sep ind (S level)) (i2 :: items') ++ new_line ind level ++ RBRACE :: rest)) as (q & -> & EQ).
        change (COMMA =? RBRACE)%N with false. rewrite N.eqb_refl. rewrite EQ.
        assert (OP : skip_ws (join_with (item_sep ind (S level)) (i2 :: items') ++ new_line ind level ++ RBRACE :: rest) =
                     join_with (item_sep ind (S level)) (i2 :: items') ++ new_line ind level ++ RBRACE :: rest).
        { destruct d as [|v2 d]; [discriminate|]. cbn [map all_of] in EI. destruct (pair_text ind level v2) as [t2|] eqn:E2; [|discriminate].
          destruct (all_of (map (pair_text ind level) d)); [|discriminate]. injection EI as -> ->. unfold pair_text in E2.
          destruct (key_str (fst v2)); [|discriminate]. destruct (dumps ind (S level) (snd v2)); [|discriminate]. injection E2 as <-.
          apply (skip_opens (join_with _ (_ :: items'))). cbn [join_with]. destruct items'; repeat split; discriminate. }
        rewrite OP. rewrite (IH OKl _ eq_refl) by (try discriminate; lia). cbn [map fst snd]. rewrite KB. reflexivity.
  Qed.

  Lemma enclose_length ind level a b i items : length (enclose ind level a b (i :: items)) >= 2 + length (join_with (item_sep ind (S level)) (i :: items)).
  Proof. unfold enclose. cbn [length]. rewrite !app_length. cbn [length]. lia. Qed.

  Lemma reads_list l : Forall reads l -> fold_right (fun v P => value_ok refloat v /\ P) True l ->
    forall ind level t, option_map (enclose ind level LBRACK RBRACK) (all_of (map (dumps ind (S level)) l)) = Some t ->
    forall rest n, length t <= n -> scan refloat object n (t ++ rest) = Some (JList (map (back object) l), rest).
  Proof.
    intros R OK ind level t E rest n L. destruct (all_of (map (dumps ind (S level)) l)) as [items|] eqn:EI; [|discriminate]. injection E as <-.
    destruct items as [|i items].
    - assert (EL : l = []) by (destruct l as [|v2 l]; [reflexivity|]; cbn [map all_of] in EI; destruct (dumps ind (S level) v2); [|discriminate];
        destruct (all_of (map (dumps ind (S level)) l)); discriminate). subst l. destruct n; [cbn in L; lia|]. reflexivity.
    - pose proof (enclose_length ind level LBRACK RBRACK i items). destruct n as [|n]; [lia|].
      unfold enclose. change ((LBRACK :: ?a) ++ rest) with (LBRACK :: a ++ rest). rewrite <- !app_assoc. cbn [scan].
      change (LBRACK =? QUOTE)%N with false. rewrite N.eqb_refl. cbv iota.
      rewrite skip_new_line. change ([RBRACK] ++ rest) with (RBRACK :: rest).
      assert (OP : opens (join_with (item_sep ind (S level)) (i :: items))).
      { destruct l as [|v2 l]; [discriminate|]. cbn [map all_of] in EI. destruct (dumps ind (S level) v2) as [t2|] eqn:E2; [|discriminate].
        destruct (all_of (map (dumps ind (S level)) l)); [|discriminate]. injection EI as -> ->. destruct OK as [OK2 _].
        pose proof (dumps_opens _ _ OK2 _ _ E2) as O2. destruct i as [|c2 i2]; [easy|]. cbn [join_with]. destruct items; exact O2. }
      rewrite skip_opens by exact OP.
      destruct (join_with (item_sep ind (S level)) (i :: items)) as [|c r] eqn:EJ; [easy|]. cbn [app].
      destruct OP as (_ & NB & _). destruct (N.eqb_spec c RBRACK); [contradiction|].
      change (c :: r ++ new_line ind level ++ RBRACK :: rest) with ((c :: r) ++ new_line ind level ++ RBRACK :: rest). rewrite <- EJ.
      rewrite (scan_items_read ind level l R OK _ EI) by (try discriminate; rewrite ?EJ; cbn [length] in *; lia). reflexivity.
  Qed.

  Theorem scan_dumps v : reads v.
  Proof.
    induction v as [|b|z|tx|s|l IH|l IH|d IH|] using jv_rect'; intros OK ind level t E rest n SR L; cbn [dumps] in E.
    - injection E as <-. destruct n; [cbn in L; lia|]. reflexivity.
    - injection E as <-. destruct n; [destruct b; cbn in L; lia|]. destruct b; reflexivity.
    - injection E as <-. destruct (show_Z_head z) as (c & r & EC & H). destruct n; [rewrite EC in L; cbn in L; lia|].
      rewrite scan_to_atom by (apply num_head_atom; eauto). rewrite scan_atom_number by (apply num_head_app; eauto). now apply scan_show.
    - injection E as <-. cbn [value_ok] in OK. destruct (json_float_cases tx OK) as [[-> -> ]|[[-> -> ]|[[-> -> ]|(N1 & N2 & N3 & ET)]]].
      + destruct n; [inversion L|]. reflexivity.
      + destruct n; [inversion L|]. reflexivity.
      + destruct n; [inversion L|]. reflexivity.
      + rewrite ET in *. destruct (scan_float tx rest OK N1 N2 N3 SR) as [SF HD]. pose proof HD as HD'. destruct HD' as (c & r & EC & _). destruct n; [rewrite EC in L; cbn in L; lia|].
        rewrite scan_to_atom by (now apply num_head_atom). rewrite scan_atom_number by (now apply num_head_app). exact SF.
    - injection E as <-. rewrite json_str_length in L. destruct n; [lia|]. unfold json_str.
      change ((QUOTE :: flat_map esc_char s ++ [QUOTE]) ++ rest) with (QUOTE :: (flat_map esc_char s ++ [QUOTE]) ++ rest). rewrite <- app_assoc. cbn [scan]. rewrite N.eqb_refl.
      change ([QUOTE] ++ rest) with (QUOTE :: rest). rewrite (scan_escaped s OK) by lia. reflexivity.
    - now apply (reads_list l IH OK ind level t).
    - now apply (reads_list l IH OK ind level t).
    - change (option_map (enclose ind level LBRACE RBRACE) (all_of (map (pair_text ind level) d)) = Some t) in E.
      destruct (all_of (map (pair_text ind level) d)) as [items|] eqn:EI; [|discriminate]. injection E as <-.
      destruct items as [|i items].
      + assert (EL : d = []) by (destruct d as [|v2 d]; [reflexivity|]; cbn [map all_of] in EI; destruct (pair_text ind level v2); [|discriminate];
          destruct (all_of (map (pair_text ind level) d)); discriminate). subst d. destruct n; [cbn in L; lia|]. reflexivity.
      + pose proof (enclose_length ind level LBRACE RBRACE i items). destruct n as [|n]; [lia|].
        unfold enclose. change ((LBRACE :: ?a) ++ rest) with (LBRACE :: a ++ rest). rewrite <- !app_assoc. cbn [scan].
        change (LBRACE =? QUOTE)%N with false. change (LBRACE =? LBRACK)%N with false. rewrite N.eqb_refl. cbv iota.
        rewrite skip_new_line. change ([RBRACE] ++ rest) with (RBRACE :: rest).
        assert (OP : opens (join_with (item_sep ind (S level)) (i :: items))).
        { destruct d as [|v2 d]; [discriminate|]. cbn [map all_of] in EI. destruct (pair_text ind level v2) as [t2|] eqn:E2; [|discriminate].
          destruct (all_of (map (pair_text ind level) d)); [|discriminate]. injection EI as -> ->. unfold pair_text in E2.
          destruct (key_str (fst v2)); [|discriminate]. destruct (dumps ind (S level) (snd v2)); [|discriminate]. injection E2 as <-.
          cbn [join_with]. destruct items; repeat split; discriminate. }
        rewrite skip_opens by exact OP.
        destruct (join_with (item_sep ind (S level)) (i :: items)) as [|c r] eqn:EJ; [easy|]. cbn [app].
        destruct OP as (_ & _ & NB). destruct (N.eqb_spec c RBRACE); [contradiction|].
        change (c :: r ++ new_line ind level ++ RBRACE :: rest) with ((c :: r) ++ new_line ind level ++ RBRACE :: rest). rewrite <- EJ.
        rewrite (scan_pairs_read ind level d IH OK _ EI) by (try discriminate; rewrite ?EJ; cbn [length] in *; lia). reflexivity.
    - discriminate.
  Qed.

  Theorem loads_with_dumps v ind t : value_ok refloat v -> dumps ind 0 v = Some t -> loads_with refloat object t = Some (back object v).
  Proof.
    intros OK E. unfold loads_with. pose proof (dumps_opens _ _ OK _ _ E) as OP.
    assert (SK : skip_ws t = t) by (rewrite <- (app_nil_r t) at 1; rewrite skip_opens by exact OP; apply app_nil_r). rewrite SK.
    pose proof (scan_dumps v OK ind 0 t E [] (S (length t)) I ltac:(lia)) as R. rewrite app_nil_r in R. rewrite R. reflexivity.
  Qed.
End Reading.

Theorem loads_dumps refloat v ind t : value_ok refloat v -> dumps ind 0 v = Some t -> loads refloat t = Some (read_back v).
Proof. apply loads_with_dumps. Qed.
