(** booktest/cache.py and the test results kept in it, testrun.py:59-86. *)
From Verif Require Export FsModel.

(** cache keys: python strings or None *)
Definition key := option str.
Definition key_eqb (a b : key) : bool :=
  match a, b with Some x, Some y => str_eqb x y | None, None => true | _, _ => false end.

Section Cache.
Context {V : Type}.

(** python values: None is python's None *)
Definition pyval := option V.

(** OrderedDict, oldest entry first *)
Definition odict := list (key * pyval).

Fixpoint od_find (k : key) (d : odict) : option pyval :=
  match d with [] => None | (x, v) :: r => if key_eqb x k then Some v else od_find k r end.
Definition od_in (k : key) (d : odict) : bool := match od_find k d with Some _ => true | None => false end.
Definition od_del (k : key) (d : odict) : odict := filter (fun e => negb (key_eqb (fst e) k)) d.

(** d[k] = v: an existing key keeps its place *)
Fixpoint od_set (k : key) (v : pyval) (d : odict) : odict :=
  match d with
  | [] => [(k, v)]
  | (x, w) :: r => if key_eqb x k then (x, v) :: r else (x, w) :: od_set k v r
  end.
Definition od_move_to_end (k : key) (d : odict) : odict :=
  match od_find k d with Some v => od_del k d ++ [(k, v)] | None => d end.

(** cache.py:18-23 LruCache.__getitem__ *)
Definition lru_get (k : key) (d : odict) : pyval * odict :=
  if od_in k d then
    let d1 := od_move_to_end k d in
    (match od_find k d1 with Some v => v | None => None end, d1)
  else (None, d).

(** cache.py:25-35 LruCache.__setitem__ *)
Definition lru_set (size : nat) (k : key) (v : pyval) (d : odict) : odict :=
  match k with
  | None => match od_find k d with Some (Some _) => od_del k d | _ => d end
  | Some _ =>
      let d1 := od_move_to_end k (od_set k v d) in
      if Nat.ltb size (length d1) then tl d1 else d1
  end.

(** The documented caches (tests.py:355-356): dict, LruCache of a size, NoCache *)
Inductive cache :=
| CDict (d : odict)
| CLru (size : nat) (d : odict)
| CNone.

(** [k in cache]; None = does not return. NoCache has no __contains__ and no __iter__, so python
    calls __getitem__(0), (1), ... until IndexError, which NoCache never raises (cache.py:45-46).
    LruCache: cache.py:15-16. *)
Definition c_in (k : key) (c : cache) : option bool :=
  match c with
  | CDict d => Some (od_in k d)
  | CLru _ d => Some (od_in k d)
  | CNone => None
  end.

(** cache[k]; None = KeyError *)
Definition c_get (k : key) (c : cache) : option (pyval * cache) :=
  match c with
  | CDict d => option_map (fun v => (v, c)) (od_find k d)
  | CLru n d => let '(v, d1) := lru_get k d in Some (v, CLru n d1)
  | CNone => Some (None, CNone)
  end.

(** cache[k] = v *)
Definition c_set (k : key) (v : pyval) (c : cache) : cache :=
  match c with
  | CDict d => CDict (od_set k v d)
  | CLru n d => CLru n (lru_set n k v d)
  | CNone => CNone
  end.

(** ** Test results *)

(** pickle.dump and pickle.load *)
Variable dump : V -> str.
Variable load : str -> option V.
Variable out_dir : str.

(** tests.py:52-53 test_result_path *)
Definition bin_path (name : str) : str := path_join out_dir (name ++ lit ".bin").

Inductive lookup_result :=
| Found (v : pyval) (c : cache)
| Missing (c : cache)             (* raises *)
| Hang.                           (* does not return *)

(** testrun.py:63-74 get_test_result, for the case [name] that matches the method.
    A directory at the path of the result file is not modelled. *)
Definition get_result (name : str) (c : cache) (f : fs) : lookup_result :=
  let p := bin_path name in
  let finish c := match c_get (Some p) c with Some (v, c') => Found v c' | None => Missing c end in
  match c_in (Some p) c with
  | None => Hang
  | Some true => finish c
  | Some false =>
      match lookup p f with
      | Some s => match load s with Some v => finish (c_set (Some p) (Some v) c) | None => Missing c end
      | None => Missing c
      end
  end.

(** testrun.py:78-86 save_test_result *)
Definition save_result (name : str) (v : pyval) (c : cache) (f : fs) : cache * fs :=
  let p := bin_path name in
  (c_set (Some p) v c,
   match v with
   | None => remove_file p f
   | Some x => write_file p (dump x) f
   end).

(** ** Processes *)

(** Several processes, each with its own cache (runs.py:22 PROCESS_LOCAL_CACHE; one process in a
    sequential run), and the result files they share. *)
Definition procs := nat -> cache.
Definition upd (w : procs) (p : nat) (c : cache) : procs := fun q => if Nat.eqb q p then c else w q.

(** what happens: process [p] stores a case's value after it ended OK or DIFF (testrun.py:103-105),
    looks up a dependency, starts anew with an empty cache, or a test changes the object it was
    given for a dependency (the cache holds the same object) *)
Inductive pevent :=
| ESave (p : nat) (name : str) (v : pyval)
| EGet (p : nat) (name : str)
| ERestart (p : nat) (c : cache)
| EMutate (p : nat) (name : str) (v : V).

Definition mutate (k : key) (v : V) (c : cache) : cache :=
  let m := map (fun e : key * pyval => if key_eqb (fst e) k then (fst e, Some v) else e) in
  match c with CDict d => CDict (m d) | CLru n d => CLru n (m d) | CNone => CNone end.

Definition pstep (e : pevent) (w : procs) (f : fs) : option lookup_result * procs * fs :=
  match e with
  | ESave p n v => let '(c, f') := save_result n v (w p) f in (None, upd w p c, f')
  | EGet p n =>
      let r := get_result n (w p) f in
      (Some r, match r with Found _ c => upd w p c | Missing c => upd w p c | Hang => w end, f)
  | ERestart p c => (None, upd w p c, f)
  | EMutate p n v => (None, upd w p (mutate (Some (bin_path n)) v (w p)), f)
  end.

Fixpoint prun (es : list pevent) (w : procs) (f : fs) : procs * fs :=
  match es with
  | [] => (w, f)
  | e :: r => let '(_, w', f') := pstep e w f in prun r w' f'
  end.

End Cache.
Arguments pyval : clear implicits.
Arguments odict : clear implicits.
Arguments cache : clear implicits.
Arguments procs : clear implicits.
Arguments pevent : clear implicits.
Arguments lookup_result : clear implicits.
