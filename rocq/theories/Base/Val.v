(** Python values as they occur in parsed labels, and MultiDicts.

    A [multidict.MultiDict] (and a [dict]) is a list of (key, value) pairs in
    insertion order; [PMulti] and [PDict] differ only in what
    [isinstance(_, MultiDict)] answers.  Floats are kept as exact rationals
    (rounding of literals to doubles is not modelled). *)
From Coq Require Import QArith.
From Verif.Base Require Import Py.
Open Scope list_scope.

Inductive pv :=
| PNone
| PBool (b : bool)
| PInt (z : Z)
| PFloat (q : Q)
| PStr (s : str)
| PTuple (l : list pv)
| PSet (l : list pv)
| PDict (kvs : list (str * pv))
| PMulti (kvs : list (str * pv)).

Notation multidict := (list (str * pv)).

Definition is_multi (v : pv) : bool :=
  match v with PMulti _ => true | _ => false end.

(** Induction principle with hypotheses for the values of a MultiDict (the only
    container pdr's label traversals enter). *)
Section PvInd.
  Variable P : pv -> Prop.
  Variable leaf : forall v, is_multi v = false -> P v.
  Variable multi : forall kvs, Forall (fun kv => P (snd kv)) kvs -> P (PMulti kvs).
  Fixpoint pv_multi_ind (v : pv) : P v :=
    match v with
    | PMulti kvs =>
        multi kvs
          ((fix go (l : multidict) : Forall (fun kv => P (snd kv)) l :=
              match l with
              | [] => Forall_nil _
              | kv :: l' => Forall_cons _ (pv_multi_ind (snd kv)) (go l')
              end) kvs)
    | PNone => leaf PNone eq_refl
    | PBool x => leaf (PBool x) eq_refl
    | PInt x => leaf (PInt x) eq_refl
    | PFloat x => leaf (PFloat x) eq_refl
    | PStr x => leaf (PStr x) eq_refl
    | PTuple x => leaf (PTuple x) eq_refl
    | PSet x => leaf (PSet x) eq_refl
    | PDict x => leaf (PDict x) eq_refl
    end.
End PvInd.

Definition as_multi (v : pv) : multidict :=
  match v with PMulti kvs => kvs | _ => [] end.

(** [md.get(key)] / [md[key]]: the first pair with that key. *)
Definition md_get (md : multidict) (k : str) : option pv :=
  match find (fun kv => str_eqb (fst kv) k) md with
  | Some kv => Some (snd kv)
  | None => None
  end.
Definition md_has (md : multidict) (k : str) : bool :=
  existsb (fun kv => str_eqb (fst kv) k) md.
(** [md.add(key, value)] *)
Definition md_add (md : multidict) (k : str) (v : pv) : multidict :=
  md ++ [(k, v)].
(** Python's [dict[key] = value]: replace in place, or append. *)
Fixpoint dict_set {A} (d : list (str * A)) (k : str) (v : A) : list (str * A) :=
  match d with
  | [] => [(k, v)]
  | (k', v') :: d' =>
      if str_eqb k' k then (k, v) :: d' else (k', v') :: dict_set d' k v
  end.
Definition dict_get {A} (d : list (str * A)) (k : str) : option A :=
  match find (fun kv => str_eqb (fst kv) k) d with
  | Some kv => Some (snd kv)
  | None => None
  end.
Definition dict_has {A} (d : list (str * A)) (k : str) : bool :=
  existsb (fun kv => str_eqb (fst kv) k) d.
