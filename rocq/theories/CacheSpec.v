(** Specification vocabulary for caches and stored test results. *)
From Verif Require Export CacheModel.

Section Lru.
Context {V : Type}.

Inductive op := OSet (k : key) (v : pyval V) | OGet (k : key).

Definition lru_op (n : nat) (o : op) (d : odict V) : odict V :=
  match o with OSet k v => lru_set n k v d | OGet k => snd (lru_get k d) end.
Definition lru_run (n : nat) (ops : list op) : odict V := fold_left (fun d o => lru_op n o d) ops [].

(** the key an operation uses: a stored key, or a key that is read and there *)
Definition uses (d : odict V) (o : op) : list key :=
  match o with
  | OSet None _ => []
  | OSet k _ => [k]
  | OGet k => if od_in k d then [k] else []
  end.

(** all keys used by [ops], in this order *)
Fixpoint used_from (n : nat) (d : odict V) (ops : list op) : list key :=
  match ops with [] => [] | o :: r => uses d o ++ used_from n (lru_op n o d) r end.
Definition used (n : nat) (ops : list op) : list key := used_from n [] ops.

(** [v] is the value last stored for [k] *)
Definition last_set (ops : list op) (k : key) (v : pyval V) : Prop :=
  exists a b, ops = a ++ OSet k v :: b /\ forall v', ~ In (OSet k v') b.
End Lru.
Arguments op : clear implicits.

(** the distinct elements of a list, in order of first occurrence *)
Fixpoint dedup (l : list key) : list key :=
  match l with [] => [] | x :: r => x :: filter (fun y => negb (key_eqb y x)) (dedup r) end.

(** ** Results *)
Section Results.
Context {V : Type}.

Definition empty_cache (c : cache V) : Prop :=
  c = CDict [] \/ exists n, 1 <= n /\ c = CLru n [].

(** a dict, or a LruCache of size at least 1, with whatever content *)
Definition working (c : cache V) : Prop :=
  match c with CDict _ => True | CLru n d => 1 <= n /\ NoDup (map fst d) | CNone => False end.

(** restarts use an empty dict or LruCache of size at least 1; no object is changed by a test *)
Definition proper_event (e : pevent V) : Prop :=
  match e with ERestart _ c => empty_cache c | EMutate _ _ _ => False | _ => True end.

(** process [p] has read or stored [n]'s value in [es] since its last restart *)
Definition touched (es : list (pevent V)) (p : nat) (n : str) : Prop :=
  exists a e b, es = a ++ e :: b /\ (e = EGet p n \/ exists v, e = ESave p n v) /\
    forall c, ~ In (ERestart p c) b.

(** no process has read or stored the value of a case that another process stores afterwards *)
Definition coherent (es : list (pevent V)) : Prop :=
  forall a q n v b, es = a ++ ESave q n v :: b -> forall p, p <> q -> ~ touched a p n.

(** a simple way to be coherent: each case is stored at most once, before anyone reads it;
    [seen] = names stored or read before *)
Fixpoint stored_first (seen : list str) (es : list (pevent V)) : Prop :=
  match es with
  | [] => True
  | ESave _ n _ :: r => ~ In n seen /\ stored_first (n :: seen) r
  | EGet _ n :: r => stored_first (n :: seen) r
  | _ :: r => stored_first seen r
  end.

(** [v] is the value last stored for case [n] by whatever process *)
Definition last_saved (es : list (pevent V)) (n : str) (v : pyval V) : Prop :=
  exists a p b, es = a ++ ESave p n v :: b /\ forall q v', ~ In (ESave q n v') b.

(** all names that occur *)
Definition names_in (es : list (pevent V)) (P : str -> Prop) : Prop :=
  forall e, In e es ->
    match e with ESave _ n _ => P n | EGet _ n => P n | EMutate _ n _ => P n | ERestart _ _ => True end.

(** a case name that is a relative path, a directory name without trailing slash *)
Definition rel_name (n : str) : Prop := starts_with [SLASH] n = false.
Definition dir_name (d : str) : Prop := d <> [] /\ ends_with [SLASH] d = false.
End Results.
