(** Model of class Metadata, pdr/pdr.py:80-207, 1213-1233.  Line numbers cite
    /repo/pdr/pdr.py. *)
From Verif.Base Require Import Py Val.
From Verif.Model Require Import Pvl.

Definition is_mapping (v : pv) : bool :=
  match v with PDict _ | PMulti _ => true | _ => false end.

(** dustgoggles.structures.dig_for_value(m, key, mtypes=(dict, MultiDict)):
    external; all items of a tree of dicts and MultiDicts, in one of the two
    traversal orders of Model/Pvl.v [order]. *)
Fixpoint items_of (o : order) (v : pv) : multidict :=
  match v with
  | PMulti kvs | PDict kvs =>
      match o with
      | DepthFirst => flat_map (fun kv => kv :: items_of o (snd kv)) kvs
      | LevelFirst => kvs ++ flat_map (fun kv => items_of o (snd kv)) kvs
      end
  | _ => []
  end.
(** None is also what the library returns when nothing matches *)
Definition dig_for_value (o : order) (m : multidict) (text : str) : pv :=
  match find (fun kv => str_eqb (fst kv) text) (items_of o (PMulti m)) with
  | Some kv => snd kv
  | None => PNone
  end.

(** pdr.py:1213-1220 [metaget_interior] *)
Definition metaget_interior (o : order) (m : multidict) (text : str) (default : pv) : pv :=
  match dig_for_value o m text with PNone => default | v => v end.
(** pdr.py:1223-1233 [metablock_interior]; the whole metadata is returned when
    the value is not a mapping *)
Definition metablock_interior (o : order) (m : multidict) (text : str) : pv :=
  let v := dig_for_value o m text in
  if is_mapping v then v else PMulti m.

(** hash(v) succeeds *)
Fixpoint hashable (v : pv) : bool :=
  match v with
  | PTuple l => forallb hashable l
  | PSet _ | PDict _ | PMulti _ => false
  | _ => true
  end.

(** The object: mapping, the parameter list whose counts are taken once at
    construction (pdr.py:96), and the two memo tables of functools.cache. *)
Record meta := mkMeta {
  mapping : multidict;
  params : list str;
  gcache : list (str * pv * pv);
  bcache : list (str * pv)
}.
(** pdr.py:87-99 *)
Definition meta_init (m : multidict) (ps : list str) : meta := mkMeta m ps [] [].
(** pdr.py:105-107 [refresh_cache] *)
Definition refresh_cache (s : meta) : meta := mkMeta (mapping s) (params s) [] [].

Section Cached.
  Variable o : order.
  (** Python's == (and hash agreement) on default values, used by the memo table *)
  Variable py_eqb : pv -> pv -> bool.

  (** pdr.py:109-136 [metaget]; the boolean is whether DuplicateKeyWarning is
      given when warn is True *)
  Definition metaget (s : meta) (text : str) (default : pv) : meta * res pv * bool :=
    let count := count_str text (params s) in
    if (count =? 0)%nat then (s, Ok default, false)
    else
      let w := (1 <? count)%nat in
      if hashable default then
        match find (fun e => str_eqb (fst (fst e)) text && py_eqb (snd (fst e)) default) (gcache s) with
        | Some e => (s, Ok (snd e), w)
        | None =>
            let v := metaget_interior o (mapping s) text default in
            (mkMeta (mapping s) (params s) ((text, default, v) :: gcache s) (bcache s), Ok v, w)
        end
      else (s, Err TypeError, w).

  (** pdr.py:154-183 [metablock] *)
  Definition metablock (s : meta) (text : str) : meta * pv :=
    if (count_str text (params s) =? 0)%nat then (s, PNone)
    else
      match find (fun e => str_eqb (fst e) text) (bcache s) with
      | Some e => (s, snd e)
      | None =>
          let v := metablock_interior o (mapping s) text in
          (mkMeta (mapping s) (params s) (gcache s) ((text, v) :: bcache s), v)
      end.

  (** A history: lookups, in-place edits of the mapping, cache refreshes *)
  Inductive mop := Get (text : str) (default : pv) | Block (text : str)
                 | Edit (m : multidict) | Refresh.
  Inductive mout := OGet (r : res pv) | OBlock (v : pv) | ONone.
  Definition mstep (s : meta) (op : mop) : meta * mout :=
    match op with
    | Get t d => let '(s', r, _) := metaget s t d in (s', OGet r)
    | Block t => let '(s', v) := metablock s t in (s', OBlock v)
    | Edit m => (mkMeta m (params s) (gcache s) (bcache s), ONone)
    | Refresh => (refresh_cache s, ONone)
    end.
  Fixpoint mrun (s : meta) (ops : list mop) : meta * list mout :=
    match ops with
    | [] => (s, [])
    | op :: ops' => let '(s1, out) := mstep s op in
                    let '(s2, outs) := mrun s1 ops' in (s2, out :: outs)
    end.
End Cached.

(** pdr.py:189-203 [_init_identifiers]: [repr] of tuples and sets is external *)
Definition init_identifiers (o : order) (py_eqb : pv -> pv -> bool) (repr : pv -> str)
  (fields : list str) (s : meta) : list (str * res pv) :=
  map (fun f =>
         let '(_, r, _) := metaget o py_eqb s f (PStr []) in
         (f, match r with
             | Ok (PTuple l) => Ok (PStr (repr (PTuple l)))
             | Ok (PSet l) => Ok (PStr (repr (PSet l)))
             | r => r
             end)) fields.
