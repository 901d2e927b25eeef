(** testcaserun.py: tformat and value_format. *)
From Verif Require Export JsonModel.

(** A value: a list, a dict (exactly these types), or anything else with the name of its type. *)
Inductive pyval := PList (l : list pyval) | PDict (d : list (jkey * pyval)) | PAtom (type_name value : str).

(** testcaserun.py:935-947 *)
Fixpoint value_format (v : pyval) : jv :=
  match v with
  | PList l => JList (map value_format l)
  | PDict d => JDict (map (fun kv => (fst kv, value_format (snd kv))) d)
  | PAtom t _ => JStr t
  end.

(** testcaserun.py:880-889: the text that tformat passes to tln; None: TypeError *)
Definition tformat_text (v : pyval) : option str := dumps (Some 2) 0 (value_format v).
