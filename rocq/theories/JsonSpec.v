(** What JSON keeps of a value. *)
From Verif Require Export JsonModel.

(** A text that JSON keeps: Unicode, and without a high surrogate directly before a low one (Python reads their two escapes back
    as one character). Texts decoded from UTF-8, and file names and environment variables, have no such pairs. *)
Fixpoint no_pair (s : str) : Prop :=
  match s with
  | c :: r => match r with d :: _ => ~ (is_high c = true /\ is_low d = true) | [] => True end /\ no_pair r
  | [] => True
  end.
Definition text (s : str) : Prop := Forall (fun c => (c < 1114112)%N) s /\ no_pair s.

(** what float.__repr__ writes: nan, inf, -inf, or digits with a fraction or an exponent, that read as the same float *)
Definition digits (s : str) : Prop := s <> [] /\ Forall (fun c => is_digit c = true) s.
Definition float_repr (refloat : str -> str) (t : str) : Prop :=
  t = lit "nan" \/ t = lit "inf" \/ t = lit "-inf" \/
  (refloat t = t /\ exists m i f e,
     t = m ++ i ++ f ++ e /\ (m = [] \/ m = [MINUS]) /\
     digits i /\ (i = [48%N] \/ hd 0%N i <> 48%N) /\
     (f = [] \/ exists d, f = DOT :: d /\ digits d) /\
     (e = [] \/ exists c g d, e = c :: g ++ d /\ (c = 101%N \/ c = 69%N) /\ (g = [] \/ g = [PLUS] \/ g = [MINUS]) /\ digits d) /\
     (f <> [] \/ e <> [])).

(** a value of Python all of whose texts and floats are such *)
Definition key_ok refloat (k : jkey) : Prop :=
  match k with JKStr s => text s | JKFloat t => float_repr refloat t | _ => True end.
Fixpoint value_ok refloat (v : jv) : Prop :=
  match v with
  | JStr s => text s
  | JFloat t => float_repr refloat t
  | JList l | JTuple l => fold_right (fun v P => value_ok refloat v /\ P) True l
  | JDict d => fold_right (fun kv P => (key_ok refloat (fst kv) /\ value_ok refloat (snd kv)) /\ P) True d
  | _ => True
  end.

(** ** What comes back: tuples as lists, keys as texts; of keys with the same text the last one's value *)
Definition key_back (k : jkey) : str := match key_str k with Some s => s | None => [] end.
Fixpoint back (object : list (str * jv) -> jv) (v : jv) : jv :=
  match v with
  | JList l | JTuple l => JList (map (back object) l)
  | JDict d => object (map (fun kv => (key_back (fst kv), back object (snd kv))) d)
  | _ => v
  end.
Definition read_back : jv -> jv := back (fun pairs => str_dict (dict_of pairs)).
(** the same with every key: what the text shows *)
Definition as_json : jv -> jv := back str_dict.

(** json.dump can write it *)
Fixpoint writable (v : jv) : Prop :=
  match v with
  | JList l | JTuple l => fold_right (fun v P => writable v /\ P) True l
  | JDict d => fold_right (fun kv P => (fst kv <> JKOther /\ writable (snd kv)) /\ P) True d
  | JOther => False
  | _ => True
  end.

(** JSON data: None, booleans, numbers, texts, lists, and dicts whose keys are (distinct) texts *)
Fixpoint plain (v : jv) : Prop :=
  match v with
  | JList l => fold_right (fun v P => plain v /\ P) True l
  | JDict d => fold_right (fun kv P => ((exists s, fst kv = JKStr s) /\ plain (snd kv)) /\ P) True d /\ NoDup (map fst d)
  | JTuple _ | JOther => False
  | _ => True
  end.
