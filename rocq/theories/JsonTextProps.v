(** C92: the text of a JSON file, stated without the constants and functions of the model: python's json.dump(v, f, indent=…) and
    json.dumps(v) (functions.py:22, 186, env.py, requests.py, httpx.py, reports.py). *)
From Verif Require Import PyStrFacts JsonModel JsonFacts JsonProofs.
From Coq Require Import Lia DecimalN.

(** the character [c] is the [i]th of [s] *)
Definition nth_of (s : str) (i : N) (c : char) : Prop := nth_error s (N.to_nat i) = Some c.
(** four hexadecimal digits *)
Definition hex_text (n : N) (t : str) : Prop :=
  exists a b c d ca cb cc cd, n = (((a * 16 + b) * 16 + c) * 16 + d)%N /\ t = [ca; cb; cc; cd] /\
    Forall (fun p => nth_of (lit "0123456789abcdef") (fst p) (snd p)) [(a, ca); (b, cb); (c, cc); (d, cd)].
Definition short : list (char * str) :=
  [(34, lit "\"""); (92, lit "\\"); (10, lit "\n"); (13, lit "\r"); (9, lit "\t"); (12, lit "\f"); (8, lit "\b")]%N.
(** one character of a text *)
Inductive char_text (c : char) : str -> Prop :=
| ct_short t : In (c, t) short -> char_text c t
| ct_self : (32 <= c <= 126)%N -> c <> 34%N -> c <> 92%N -> char_text c [c]
| ct_hex t : (c < 32 \/ 126 < c < 65536)%N -> ~ (exists t', In (c, t') short) -> hex_text c t -> char_text c (lit "\u" ++ t)
| ct_pair hi lo t u : (c = 65536 + hi * 1024 + lo)%N -> (lo < 1024)%N -> (hi < 1024)%N -> hex_text (55296 + hi) t -> hex_text (56320 + lo) u ->
    char_text c (lit "\u" ++ t ++ lit "\u" ++ u).
Definition string_text (s t : str) : Prop := exists ts, Forall2 char_text s ts /\ t = lit """" ++ concat ts ++ lit """".

(** a natural number in decimal *)
Definition decimal (n : N) (t : str) : Prop :=
  exists ds, Forall2 (nth_of (lit "0123456789")) ds t /\ fold_left (fun a d => a * 10 + d)%N ds 0%N = n /\ (ds = [0%N] \/ (ds <> [] /\ hd 0%N ds <> 0%N)).
Definition int_text (z : Z) (t : str) : Prop :=
  (0 <= z /\ decimal (Z.to_N z) t)%Z \/ (z < 0 /\ exists u, t = lit "-" ++ u /\ decimal (Z.to_N (- z)) u)%Z.
Definition float_text (repr t : str) : Prop :=
  (repr = lit "nan" /\ t = lit "NaN") \/ (repr = lit "inf" /\ t = lit "Infinity") \/ (repr = lit "-inf" /\ t = lit "-Infinity") \/
  (repr <> lit "nan" /\ repr <> lit "inf" /\ repr <> lit "-inf" /\ t = repr).
Definition bool_text (b : bool) : str := if b then lit "true" else lit "false".
(** the text that stands for a key *)
Inductive key_text : jkey -> str -> Prop :=
| kt_str s : key_text (JKStr s) s
| kt_int z t : int_text z t -> key_text (JKInt z) t
| kt_float r t : float_text r t -> key_text (JKFloat r) t
| kt_bool b : key_text (JKBool b) (bool_text b)
| kt_none : key_text JKNone (lit "null").

(** what is between the parts: nothing and ", " in one line; otherwise each part has a line of its own *)
Definition line_break (ind : option nat) (depth : nat) : str := match ind with None => [] | Some n => 10%N :: repeat 32%N (n * depth) end.
Definition between (ind : option nat) (depth : nat) : str := lit "," ++ match ind with None => lit " " | Some _ => line_break ind depth end.
Inductive parts_text (ind : option nat) (depth : nat) (op cl : str) : list str -> str -> Prop :=
| pt_none : parts_text ind depth op cl [] (op ++ cl)
| pt_some p ps : parts_text ind depth op cl (p :: ps)
    (op ++ line_break ind (S depth) ++ p ++ flat_map (fun q => between ind (S depth) ++ q) ps ++ line_break ind depth ++ cl).

(** [t] is the text of the value *)
Inductive json_text (ind : option nat) : nat -> jv -> str -> Prop :=
| jt_none k : json_text ind k JNone (lit "null")
| jt_bool k b : json_text ind k (JBool b) (bool_text b)
| jt_int k z t : int_text z t -> json_text ind k (JInt z) t
| jt_float k r t : float_text r t -> json_text ind k (JFloat r) t
| jt_str k s t : string_text s t -> json_text ind k (JStr s) t
| jt_list k l ts t : Forall2 (json_text ind (S k)) l ts -> parts_text ind k (lit "[") (lit "]") ts t -> json_text ind k (JList l) t
| jt_tuple k l ts t : Forall2 (json_text ind (S k)) l ts -> parts_text ind k (lit "[") (lit "]") ts t -> json_text ind k (JTuple l) t
| jt_dict k d ts t :
    Forall2 (fun (e : jkey * jv) u => exists name qn tv, key_text (fst e) name /\ string_text name qn /\ json_text ind (S k) (snd e) tv /\ u = qn ++ lit ": " ++ tv) d ts ->
    parts_text ind k (lit "{") (lit "}") ts t -> json_text ind k (JDict d) t.

Lemma hex_digit_nth n : (n < 16)%N -> nth_of (lit "0123456789abcdef") n (hex_digit n).
Proof.
  intros H. assert (E : forall m, m < 16 -> nth_of (lit "0123456789abcdef") (N.of_nat m) (hex_digit (N.of_nat m))).
  { intros m M. do 16 (destruct m as [|m]; [reflexivity|]). lia. }
  rewrite <- (N2Nat.id n). apply E. lia.
Qed.
Lemma hex4_text n : (n < 65536)%N -> hex_text n (hex4 n).
Proof.
  intros H. unfold hex_text, hex4. exists (n / 4096 mod 16)%N, (n / 256 mod 16)%N, (n / 16 mod 16)%N, (n mod 16)%N. do 4 eexists.
  split; [|split; [reflexivity|repeat (constructor; [apply hex_digit_nth; apply N.mod_lt; lia|]); constructor]].
  pose proof (N.div_mod n 16) as E1. pose proof (N.div_mod (n / 16) 16) as E2. pose proof (N.div_mod (n / 16 / 16) 16) as E3.
  rewrite !N.div_div in * by lia. change (16 * 16)%N with 256%N in *. change (256 * 16)%N with 4096%N in *.
  assert (n / 4096 < 16)%N by (apply N.div_lt_upper_bound; lia). rewrite (N.mod_small (n / 4096)) by assumption. lia.
Qed.
Lemma esc_char_text c : (c < 1114112)%N -> char_text c (esc_char c).
Proof.
  intros B. unfold esc_char.
  destruct (N.eqb_spec c QUOTE) as [->|N1]; [apply ct_short; left; reflexivity|].
  destruct (N.eqb_spec c BSLASH) as [->|N2]; [apply ct_short; right; left; reflexivity|].
  destruct (N.eqb_spec c NL) as [->|N3]; [apply ct_short; do 2 right; left; reflexivity|].
  destruct (N.eqb_spec c CR) as [->|N4]; [apply ct_short; do 3 right; left; reflexivity|].
  destruct (N.eqb_spec c TAB) as [->|N5]; [apply ct_short; do 4 right; left; reflexivity|].
  destruct (N.eqb_spec c 12) as [->|N6]; [apply ct_short; do 5 right; left; reflexivity|].
  destruct (N.eqb_spec c 8) as [->|N7]; [apply ct_short; do 6 right; left; reflexivity|].
  destruct ((32 <=? c) && (c <=? 126))%N eqn:P.
  - apply andb_true_iff in P as [P1 P2]. apply N.leb_le in P1, P2. apply ct_self; [lia|exact N1|exact N2].
  - destruct (N.ltb_spec c 65536) as [L|L].
    + change (u_escape c) with (lit "\u" ++ hex4 c). apply ct_hex; [|intros [t' I]|now apply hex4_text].
      * apply andb_false_iff in P as [P|P]; [apply N.leb_gt in P; lia|apply N.leb_gt in P; lia].
      * cbn in I. repeat (destruct I as [I|I]; [injection I as I1 _; first [now apply N1|now apply N2|now apply N3|now apply N4|now apply N5|now apply N6|now apply N7]|]). exact I.
    + assert (Q : ((c - 65536) / 1024 < 1024)%N) by (apply N.div_lt_upper_bound; lia). rewrite (N.mod_small _ _ Q).
      pose proof (N.div_mod (c - 65536) 1024) as E. pose proof (N.mod_lt (c - 65536) 1024) as R.
      change (u_escape (55296 + (c - 65536) / 1024) ++ u_escape (56320 + (c - 65536) mod 1024))
        with (lit "\u" ++ hex4 (55296 + (c - 65536) / 1024) ++ lit "\u" ++ hex4 (56320 + (c - 65536) mod 1024)).
      apply (ct_pair c ((c - 65536) / 1024) ((c - 65536) mod 1024)); [lia|lia|exact Q|apply hex4_text; lia|apply hex4_text; lia].
Qed.
Lemma json_str_text s : Forall (fun c => (c < 1114112)%N) s -> string_text s (json_str s).
Proof.
  intros B. exists (map esc_char s). split.
  - induction B as [|c r HC HR IH]; constructor; [now apply esc_char_text|exact IH].
  - unfold json_str. rewrite flat_map_concat_map. reflexivity.
Qed.

(** the digits of a number *)
Fixpoint digits (d : Decimal.uint) : list N :=
  match d with
  | Decimal.Nil => []
  | Decimal.D0 r => 0 :: digits r | Decimal.D1 r => 1 :: digits r | Decimal.D2 r => 2 :: digits r | Decimal.D3 r => 3 :: digits r
  | Decimal.D4 r => 4 :: digits r | Decimal.D5 r => 5 :: digits r | Decimal.D6 r => 6 :: digits r | Decimal.D7 r => 7 :: digits r
  | Decimal.D8 r => 8 :: digits r | Decimal.D9 r => 9 :: digits r
  end%N.
Lemma digits_text d : Forall2 (nth_of (lit "0123456789")) (digits d) (uint_str d).
Proof. induction d; cbn [digits uint_str]; constructor; try assumption; reflexivity. Qed.
Lemma digits_acc d : forall p, fold_left (fun a d => a * 10 + d)%N (digits d) (Npos p) = Npos (Pos.of_uint_acc d p).
Proof.
  induction d; intros p; cbn [digits fold_left Pos.of_uint_acc]; [reflexivity|..].
  all: rewrite <- IHd; f_equal; lia.
Qed.
Lemma digits_value d : fold_left (fun a d => a * 10 + d)%N (digits d) 0%N = Pos.of_uint d.
Proof. induction d; cbn [digits fold_left Pos.of_uint]; [reflexivity|exact IHd|..]; apply digits_acc. Qed.
Lemma show_N_text n : decimal n (show_N n).
Proof.
  exists (digits (N.to_uint n)). split; [apply digits_text|]. split; [rewrite digits_value; apply (Unsigned.of_to n)|].
  pose proof (Unsigned.to_of (N.to_uint n)) as E. rewrite Unsigned.of_to in E.
  destruct (show_N_shape n) as (c & r & S & D & Z). unfold show_N in *.
  destruct (N.to_uint n) as [|u|u|u|u|u|u|u|u|u|u]; cbn [digits hd uint_str] in *; try discriminate; try (right; split; discriminate).
  injection S as <- <-. specialize (Z eq_refl). left. f_equal. destruct u; cbn [uint_str] in Z; try discriminate. reflexivity.
Qed.
Lemma show_Z_text z : int_text z (show_Z z).
Proof.
  destruct z as [|p|p]; [left|left|right].
  - split; [lia|]. apply show_N_text.
  - split; [lia|]. apply show_N_text.
  - split; [lia|]. exists (show_N (Npos p)). split; [reflexivity|]. apply show_N_text.
Qed.
Lemma json_float_text r : float_text r (json_float r).
Proof.
  unfold json_float, float_text. destruct (str_eqb_spec r (lit "nan")); [auto|]. destruct (str_eqb_spec r (lit "inf")); [auto|].
  destruct (str_eqb_spec r (lit "-inf")); [auto|]. right. right. right. auto.
Qed.
Lemma key_str_text k t : key_str k = Some t -> key_text k t.
Proof.
  destruct k; cbn [key_str]; intros E; [injection E as <-..|discriminate]; constructor; [apply show_Z_text|apply json_float_text].
Qed.
Lemma enclose_text ind k opn cls ts : parts_text ind k [opn] [cls] ts (enclose ind k opn cls ts).
Proof.
  destruct ts as [|p ps]; [exact (pt_none ind k [opn] [cls])|].
  replace (enclose ind k opn cls (p :: ps))
    with ([opn] ++ line_break ind (S k) ++ p ++ flat_map (fun q => between ind (S k) ++ q) ps ++ line_break ind k ++ [cls]); [constructor|].
  unfold enclose. cbn [app]. f_equal. f_equal. rewrite !app_assoc. f_equal. f_equal. clear.
  revert p. induction ps as [|q ps IH]; intros p; cbn [flat_map]; [now rewrite app_nil_r|].
  change (join_with (item_sep ind (S k)) (p :: q :: ps)) with (p ++ item_sep ind (S k) ++ join_with (item_sep ind (S k)) (q :: ps)).
  rewrite <- IH. rewrite <- !app_assoc. f_equal. f_equal. destruct ind; reflexivity.
Qed.

(** the characters of all texts in a value are code points *)
Fixpoint code_points (v : jv) : Prop :=
  match v with
  | JStr s => Forall (fun c => (c < 1114112)%N) s
  | JList l | JTuple l => fold_right (fun x P => code_points x /\ P) True l
  | JDict d => fold_right (fun e P => (match fst e with JKStr s | JKFloat s => Forall (fun c => (c < 1114112)%N) s | _ => True end /\ code_points (snd e)) /\ P) True d
  | _ => True
  end.

Lemma lit_points s : Forall (fun c => (c < 1114112)%N) (lit s).
Proof.
  unfold lit. apply Forall_map. apply Forall_forall. intros a _. pose proof (N_ascii_bounded a). lia.
Qed.
Lemma digits_points l : Forall (fun c => is_digit c = true) l -> Forall (fun c => (c < 1114112)%N) l.
Proof. intros H. eapply Forall_impl; [|exact H]. cbn. intros c D. unfold is_digit in D. apply andb_true_iff in D as [_ D]. apply N.leb_le in D. lia. Qed.
Lemma key_points k t : key_str k = Some t -> match k with JKStr s | JKFloat s => Forall (fun c => (c < 1114112)%N) s | _ => True end -> Forall (fun c => (c < 1114112)%N) t.
Proof.
  destruct k; cbn [key_str]; intros E P; [injection E as <-..|discriminate]; [exact P| | | |apply lit_points].
  - unfold show_Z. destruct z; [|apply digits_points, show_N_digits|]; [apply digits_points, show_N_digits|]. constructor; [reflexivity|apply digits_points, show_N_digits].
  - unfold json_float. repeat (destruct (str_eqb _ _); [apply lit_points|]). exact P.
  - destruct b; apply lit_points.
Qed.

(** C92: the text that is written. *)
Theorem C92_text ind v k t : code_points v -> dumps ind k v = Some t -> json_text ind k v t.
Proof.
  revert v k t. fix IH 1. intros v k t C E. destruct v as [|b|z|r|s|l|l|d|]; cbn [dumps] in E.
  - injection E as <-. constructor.
  - injection E as <-. constructor.
  - injection E as <-. constructor. apply show_Z_text.
  - injection E as <-. constructor. apply json_float_text.
  - injection E as <-. constructor. apply json_str_text. exact C.
  - destruct (all_of (map (dumps ind (S k)) l)) as [ts|] eqn:A; [|discriminate]. injection E as <-.
    apply (jt_list ind k l ts); [|apply enclose_text]. cbn [code_points] in C. clear -IH A C. revert ts A C.
    induction l as [|x l IHl]; intros ts A C; cbn [map all_of] in A; [injection A as <-; constructor|]. cbn [fold_right] in C. destruct C as [CX CL].
    destruct (dumps ind (S k) x) as [tx|] eqn:X; [|discriminate]. destruct (all_of (map (dumps ind (S k)) l)) as [tl|]; [|discriminate]. injection A as <-.
    constructor; [now apply IH|now apply IHl].
  - destruct (all_of (map (dumps ind (S k)) l)) as [ts|] eqn:A; [|discriminate]. injection E as <-.
    apply (jt_tuple ind k l ts); [|apply enclose_text]. cbn [code_points] in C. clear -IH A C. revert ts A C.
    induction l as [|x l IHl]; intros ts A C; cbn [map all_of] in A; [injection A as <-; constructor|]. cbn [fold_right] in C. destruct C as [CX CL].
    destruct (dumps ind (S k) x) as [tx|] eqn:X; [|discriminate]. destruct (all_of (map (dumps ind (S k)) l)) as [tl|]; [|discriminate]. injection A as <-.
    constructor; [now apply IH|now apply IHl].
  - match type of E with option_map _ ?a = _ => destruct a as [ts|] eqn:A; [|discriminate] end. injection E as <-.
    apply (jt_dict ind k d ts); [|apply enclose_text]. cbn [code_points] in C. clear -IH A C. revert ts A C.
    induction d as [|[key x] d IHd]; intros ts A C; cbn [map all_of fst snd] in A; [injection A as <-; constructor|]. cbn [fold_right fst snd] in C. destruct C as [[CK CX] CD].
    destruct (key_str key) as [name|] eqn:K; [|discriminate]. destruct (dumps ind (S k) x) as [tx|] eqn:X; [|discriminate].
    match type of A with match ?a with _ => _ end = _ => destruct a as [td|]; [|discriminate] end. injection A as <-.
    constructor; [|now apply IHd]. exists name, (json_str name), tx. split; [now apply key_str_text|]. split; [|split; [now apply IH|reflexivity]].
    apply json_str_text. exact (key_points _ _ K CK).
  - discriminate.
Qed.
Print Assumptions C92_text.
(** a value with a nested list, a dict, an escape, a surrogate pair and a negative number *)
Example C92_text_example :
  let v := JDict [(JKStr (lit "a"), JList [JInt (-10); JNone; JStr [34; 10; 233; 128512]%N]); (JKInt 7, JTuple [])] in
  code_points v /\
  dumps None 0 v = Some (lit "{""a"": [-10, null, ""\""\n\u00e9\ud83d\ude00""], ""7"": []}") /\
  dumps (Some 2) 0 v = Some (lit "{" ++ [10%N] ++ lit "  ""a"": [" ++ [10%N] ++ lit "    -10," ++ [10%N] ++ lit "    null," ++ [10%N] ++
    lit "    ""\""\n\u00e9\ud83d\ude00""" ++ [10%N] ++ lit "  ]," ++ [10%N] ++ lit "  ""7"": []" ++ [10%N] ++ lit "}").
Proof. split; [cbn; repeat (split || constructor)|]. split; vm_compute; reflexivity. Qed.
