(** What looking a key up in a label means. *)
From Verif.Base Require Import Py Val.
(** every value the label gives to a key, in document order, at any depth *)
Fixpoint values_of (k : str) (v : pv) : list pv :=
  match v with
  | PMulti kvs | PDict kvs =>
      flat_map (fun kv => (if str_eqb (fst kv) k then [snd kv] else []) ++ values_of k (snd kv)) kvs
  | _ => []
  end.
(** the values a mapping gives to a key at its own level *)
Definition top_values (k : str) (kvs : multidict) : list pv :=
  map snd (filter (fun kv => str_eqb (fst kv) k) kvs).
Definition or_default (v d : pv) : pv := match v with PNone => d | _ => v end.

(** The contents a label has had since the lookups were last refreshed, latest
    first, in a history of edits ([Some m]: the label becomes [m]) and refreshes
    ([None]), starting from label [m0]. *)
Fixpoint versions (vs : list multidict) (history : list (option multidict)) : list multidict :=
  match history with
  | [] => vs
  | Some m :: h => versions (m :: vs) h
  | None :: h => versions (firstn 1 vs) h
  end.
