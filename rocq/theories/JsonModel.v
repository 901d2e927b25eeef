(** The JSON texts that functions.py, requests.py, httpx.py, env.py and reports.py write with [json.dump] and [json.dumps] and
    read with [json.load]: Python's json/encoder.py and json/decoder.py with the default options, for the two layouts that the
    code asks for (no indent, and indent=4 or 2). *)
From Verif Require Export PyStr.
From Coq Require Export ZArith.
From Coq Require Decimal.

(** A key of a dict. [JKOther]: a key that json.dump refuses with a TypeError (a tuple, say). *)
Inductive jkey := JKStr (s : str) | JKInt (z : Z) | JKFloat (repr : str) | JKBool (b : bool) | JKNone | JKOther.
(** A Python value. A float is its repr. [JOther]: a value that json.dump refuses with a TypeError. *)
Inductive jv :=
| JNone | JBool (b : bool) | JInt (z : Z) | JFloat (repr : str) | JStr (s : str)
| JList (l : list jv) | JTuple (l : list jv) | JDict (d : list (jkey * jv)) | JOther.

(** ** Writing *)

Definition QUOTE : char := 34%N.
Definition COMMA : char := 44%N.
Definition COLON : char := 58%N.
Definition BSLASH : char := 92%N.
Definition LBRACK : char := 91%N.
Definition RBRACK : char := 93%N.
Definition LBRACE : char := 123%N.
Definition RBRACE : char := 125%N.

(** '{0:04x}' *)
Definition hex_digit (n : N) : char := (if n <? 10 then 48 + n else 87 + n)%N.
Definition hex4 (n : N) : str :=
  [hex_digit (n / 4096 mod 16); hex_digit (n / 256 mod 16); hex_digit (n / 16 mod 16); hex_digit (n mod 16)]%N.
Definition u_escape (n : N) : str := BSLASH :: 117%N :: hex4 n.

(** json/encoder.py py_encode_basestring_ascii: one character *)
Definition esc_char (c : char) : str :=
  (if c =? QUOTE then [BSLASH; QUOTE]
   else if c =? BSLASH then [BSLASH; BSLASH]
   else if c =? NL then [BSLASH; 110]
   else if c =? CR then [BSLASH; 114]
   else if c =? TAB then [BSLASH; 116]
   else if c =? 12 then [BSLASH; 102]
   else if c =? 8 then [BSLASH; 98]
   else if (32 <=? c) && (c <=? 126) then [c]
   else if c <? 65536 then u_escape c
   else u_escape (55296 + (c - 65536) / 1024 mod 1024) ++ u_escape (56320 + (c - 65536) mod 1024))%N.
Definition json_str (s : str) : str := QUOTE :: flat_map esc_char s ++ [QUOTE].

(** int.__repr__ *)
Fixpoint uint_str (d : Decimal.uint) : str :=
  match d with
  | Decimal.Nil => []
  | Decimal.D0 r => 48%N :: uint_str r | Decimal.D1 r => 49%N :: uint_str r | Decimal.D2 r => 50%N :: uint_str r | Decimal.D3 r => 51%N :: uint_str r
  | Decimal.D4 r => 52%N :: uint_str r | Decimal.D5 r => 53%N :: uint_str r | Decimal.D6 r => 54%N :: uint_str r | Decimal.D7 r => 55%N :: uint_str r
  | Decimal.D8 r => 56%N :: uint_str r | Decimal.D9 r => 57%N :: uint_str r
  end.
Definition show_N (n : N) : str := uint_str (N.to_uint n).
Definition show_Z (z : Z) : str :=
  match z with Zneg p => MINUS :: show_N (Npos p) | _ => show_N (Z.to_N z) end.

(** json/encoder.py floatstr, of float.__repr__ *)
Definition json_float (t : str) : str :=
  if str_eqb t (lit "nan") then lit "NaN" else if str_eqb t (lit "inf") then lit "Infinity"
  else if str_eqb t (lit "-inf") then lit "-Infinity" else t.
Definition json_bool (b : bool) : str := if b then lit "true" else lit "false".
(** json/encoder.py _iterencode_dict: the text of a key; None: TypeError *)
Definition key_str (k : jkey) : option str :=
  match k with
  | JKStr s => Some s
  | JKInt z => Some (show_Z z)
  | JKFloat t => Some (json_float t)
  | JKBool b => Some (json_bool b)
  | JKNone => Some (lit "null")
  | JKOther => None
  end.

Fixpoint all_of {A} (l : list (option A)) : option (list A) :=
  match l with
  | [] => Some []
  | None :: _ => None
  | Some a :: r => match all_of r with Some s => Some (a :: s) | None => None end
  end.

(** the text between the elements: ", " without indent, else a comma, a new line and the indent *)
Definition new_line (indent : option nat) (level : nat) : str :=
  match indent with None => [] | Some n => NL :: repeat SP (n * level) end.
Definition item_sep (indent : option nat) (level : nat) : str :=
  match indent with None => [COMMA; SP] | Some n => COMMA :: NL :: repeat SP (n * level) end.
Definition enclose (indent : option nat) (level : nat) (opn cls : char) (items : list str) : str :=
  match items with
  | [] => [opn; cls]
  | _ => opn :: new_line indent (S level) ++ join_with (item_sep indent (S level)) items ++ new_line indent level ++ [cls]
  end.

(** json/encoder.py _make_iterencode, sort_keys=False; None: TypeError *)
Fixpoint dumps (indent : option nat) (level : nat) (v : jv) : option str :=
  match v with
  | JNone => Some (lit "null")
  | JBool b => Some (json_bool b)
  | JInt z => Some (show_Z z)
  | JFloat t => Some (json_float t)
  | JStr s => Some (json_str s)
  | JList l | JTuple l => option_map (enclose indent level LBRACK RBRACK) (all_of (map (dumps indent (S level)) l))
  | JDict d => option_map (enclose indent level LBRACE RBRACE)
      (all_of (map (fun kv => match key_str (fst kv), dumps indent (S level) (snd kv) with
                              | Some k, Some t => Some (json_str k ++ [COLON; SP] ++ t)
                              | _, _ => None
                              end) d))
  | JOther => None
  end.

(** ** Reading *)

Definition is_digit (c : char) : bool := ((48 <=? c) && (c <=? 57))%N.
Definition is_ws (c : char) : bool := ((c =? SP) || (c =? TAB) || (c =? NL) || (c =? CR))%N.
Fixpoint skip_ws (s : str) : str :=
  match s with
  | c :: r => if is_ws c then skip_ws r else s
  | [] => []
  end.

Definition hex_value (c : char) : option N :=
  (if is_digit c then Some (c - 48)
   else if (97 <=? c) && (c <=? 102) then Some (c - 87)
   else if (65 <=? c) && (c <=? 70) then Some (c - 55)
   else None)%N.
(** json/decoder.py _decode_uXXXX: four hex digits *)
Definition read_hex4 (s : str) : option (N * str) :=
  match s with
  | a :: b :: c :: d :: r =>
      match hex_value a, hex_value b, hex_value c, hex_value d with
      | Some a, Some b, Some c, Some d => Some (a * 4096 + b * 256 + c * 16 + d, r)%N
      | _, _, _, _ => None
      end
  | _ => None
  end.
Definition is_high (n : N) : bool := ((55296 <=? n) && (n <=? 56319))%N.
Definition is_low (n : N) : bool := ((56320 <=? n) && (n <=? 57343))%N.
(** json/decoder.py py_scanstring: after \u; a high surrogate joins with the escape of a low one that follows *)
Definition read_u (s : str) : option (char * str) :=
  match read_hex4 s with
  | None => None
  | Some (n, r) =>
      if is_high n then
        match r with
        | b :: u :: r1 =>
            if ((b =? BSLASH) && (u =? 117))%N then
              match read_hex4 r1 with
              | None => None
              | Some (m, r2) => if is_low m then Some (65536 + (n - 55296) * 1024 + (m - 56320), r2)%N else Some (n, r)
              end
            else Some (n, r)
        | _ => Some (n, r)
        end
      else Some (n, r)
  end.
(** json/decoder.py py_scanstring, strict: after the opening quote, up to and including the closing one. [fuel]: the length is enough. *)
Definition short_escape (c : char) : option char :=
  (if c =? QUOTE then Some QUOTE else if c =? BSLASH then Some BSLASH else if c =? SLASH then Some SLASH
   else if c =? 98 then Some 8 else if c =? 102 then Some 12 else if c =? 110 then Some NL
   else if c =? 114 then Some CR else if c =? 116 then Some TAB else None)%N.
Fixpoint scan_string (fuel : nat) (s : str) : option (str * str) :=
  match fuel with
  | 0 => None
  | S n =>
      match s with
      | [] => None
      | c :: r =>
          if (c =? QUOTE)%N then Some ([], r)
          else if (c =? BSLASH)%N then
            match r with
            | [] => None
            | e :: r1 =>
                let read := if (e =? 117)%N then read_u r1
                            else match short_escape e with Some x => Some (x, r1) | None => None end in
                match read with
                | None => None
                | Some (x, r2) => match scan_string n r2 with Some (t, q) => Some (x :: t, q) | None => None end
                end
            end
          else if (c <? 32)%N then None
          else match scan_string n r with Some (t, q) => Some (c :: t, q) | None => None end
      end
  end.

Fixpoint str_uint (s : str) : Decimal.uint :=
  match s with
  | [] => Decimal.Nil
  | c :: r =>
      let d := str_uint r in
      match (c - 48)%N with
      | 0%N => Decimal.D0 d | 1%N => Decimal.D1 d | 2%N => Decimal.D2 d | 3%N => Decimal.D3 d | 4%N => Decimal.D4 d
      | 5%N => Decimal.D5 d | 6%N => Decimal.D6 d | 7%N => Decimal.D7 d | 8%N => Decimal.D8 d | _ => Decimal.D9 d
      end
  end.
Definition read_N (s : str) : N := N.of_uint (str_uint s).

(** the parts of NUMBER_RE, (-?(?:0|[1-9]\d* ))(\.\d+)?([eE][-+]?\d+)? *)
Definition take_minus (s : str) : str * str :=
  match s with c :: r => if (c =? MINUS)%N then ([MINUS], r) else ([], s) | [] => ([], s) end.
Definition take_int (s : str) : str * str :=
  match s with c :: r => if (c =? 48)%N then ([c], r) else span is_digit s | [] => ([], s) end.
Definition take_frac (s : str) : str * str :=
  match s with
  | c :: r => if (c =? DOT)%N then match span is_digit r with ([], _) => ([], s) | (d, q) => (DOT :: d, q) end else ([], s)
  | [] => ([], s)
  end.
Definition take_sign (s : str) : str * str :=
  match s with c :: r => if ((c =? PLUS) || (c =? MINUS))%N then ([c], r) else ([], s) | [] => ([], s) end.
Definition take_exp (s : str) : str * str :=
  match s with
  | c :: r =>
      if ((c =? 101) || (c =? 69))%N then
        let (g, q) := take_sign r in
        match span is_digit q with ([], _) => ([], s) | (d, t) => (c :: g ++ d, t) end
      else ([], s)
  | [] => ([], s)
  end.

(** dict(pairs): the last value of a key, where the key was first *)
Fixpoint pair_put (k : str) (v : jv) (d : list (str * jv)) : list (str * jv) :=
  match d with
  | [] => [(k, v)]
  | (j, w) :: r => if str_eqb j k then (j, v) :: r else (j, w) :: pair_put k v r
  end.
Definition dict_of (pairs : list (str * jv)) : list (str * jv) := fold_left (fun d p => pair_put (fst p) (snd p) d) pairs [].
Definition str_dict (d : list (str * jv)) : jv := JDict (map (fun p => (JKStr (fst p), snd p)) d).

Definition strip_prefix (p s : str) : option str := if starts_with p s then Some (skipn (length p) s) else None.

Section Reading.
  Variable refloat : str -> str.                  (* repr(float(text)) for the text of a number *)
  Variable object : list (str * jv) -> jv.        (* object_pairs_hook *)

  (** json/scanner.py: a number *)
  Definition scan_number (s : str) : option (jv * str) :=
    let (m, s1) := take_minus s in
    let (i, s2) := take_int s1 in
    match i with
    | [] => None
    | _ =>
        let (f, s3) := take_frac s2 in
        let (e, s4) := take_exp s3 in
        match f, e with
        | [], [] => Some (JInt (match m with [] => Z.of_N (read_N i) | _ => Z.opp (Z.of_N (read_N i)) end), s2)
        | _, _ => Some (JFloat (refloat (m ++ i ++ f ++ e)), s4)
        end
    end.

  (** json/scanner.py py_make_scanner: what is not a string, an object or an array *)
  Definition scan_atom (s : str) : option (jv * str) :=
    match strip_prefix (lit "null") s with
    | Some r => Some (JNone, r)
    | None => match strip_prefix (lit "true") s with
    | Some r => Some (JBool true, r)
    | None => match strip_prefix (lit "false") s with
    | Some r => Some (JBool false, r)
    | None => match strip_prefix (lit "NaN") s with
    | Some r => Some (JFloat (lit "nan"), r)
    | None => match strip_prefix (lit "Infinity") s with
    | Some r => Some (JFloat (lit "inf"), r)
    | None => match strip_prefix (lit "-Infinity") s with
    | Some r => Some (JFloat (lit "-inf"), r)
    | None => scan_number s
    end end end end end end.

  (** json/scanner.py scan_once, json/decoder.py JSONArray and JSONObject *)
  Fixpoint scan (fuel : nat) (s : str) : option (jv * str) :=
    match fuel with
    | 0 => None
    | S n =>
        match s with
        | [] => None
        | c :: r =>
            if (c =? QUOTE)%N then match scan_string n r with Some (t, q) => Some (JStr t, q) | None => None end
            else if (c =? LBRACK)%N then
              match skip_ws r with
              | d :: q => if (d =? RBRACK)%N then Some (JList [], q)
                          else match scan_items n (d :: q) with Some (l, q') => Some (JList l, q') | None => None end
              | [] => None
              end
            else if (c =? LBRACE)%N then
              match skip_ws r with
              | d :: q => if (d =? RBRACE)%N then Some (object [], q)
                          else match scan_pairs n (d :: q) with Some (l, q') => Some (object l, q') | None => None end
              | [] => None
              end
            else scan_atom s
        end
    end
  with scan_items (fuel : nat) (s : str) : option (list jv * str) :=
    match fuel with
    | 0 => None
    | S n =>
        match scan n s with
        | None => None
        | Some (v, r) =>
            match skip_ws r with
            | [] => None
            | d :: q =>
                if (d =? RBRACK)%N then Some ([v], q)
                else if (d =? COMMA)%N then match scan_items n (skip_ws q) with Some (l, q') => Some (v :: l, q') | None => None end
                else None
            end
        end
    end
  with scan_pairs (fuel : nat) (s : str) : option (list (str * jv) * str) :=
    match fuel with
    | 0 => None
    | S n =>
        match s with
        | c :: r0 =>
            if (c =? QUOTE)%N then
              match scan_string n r0 with
              | None => None
              | Some (k, r) =>
                  match skip_ws r with
                  | d :: q =>
                      if (d =? COLON)%N then
                        match scan n (skip_ws q) with
                        | None => None
                        | Some (v, r1) =>
                            match skip_ws r1 with
                            | [] => None
                            | e :: q1 =>
                                if (e =? RBRACE)%N then Some ([(k, v)], q1)
                                else if (e =? COMMA)%N then
                                  match scan_pairs n (skip_ws q1) with Some (l, q') => Some ((k, v) :: l, q') | None => None end
                                else None
                            end
                        end
                      else None
                  | [] => None
                  end
              end
            else None
        | [] => None
        end
    end.

  (** json.loads; None: JSONDecodeError *)
  Definition loads_with (s : str) : option jv :=
    let t := skip_ws s in
    match scan (S (length t)) t with
    | Some (v, r) => match skip_ws r with [] => Some v | _ => None end
    | None => None
    end.
End Reading.
(** without object_pairs_hook, as the code calls it: a dict *)
Definition loads (refloat : str -> str) : str -> option jv := loads_with refloat (fun pairs => str_dict (dict_of pairs)).
