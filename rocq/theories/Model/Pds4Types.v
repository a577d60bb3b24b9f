(** Model of the choice of integer types, of special constants, of scaling and of bit
    masks for PDS4 arrays: pdr/pds4_tools/reader/data_types.py:741-868, 871-973,
    994-1140, 1143-1200, pdr/pds4_tools/reader/read_arrays.py:84-122, 214-219,
    [scale_pds4_tools_struct] of pdr/_scaling.py:180-204 and the PDS4 part of
    Data.get_scaled, pdr/pdr.py:856-884.  Line numbers cite data_types.py unless said.
    numpy's arithmetic is that of numpy 2.  An array is given by the list of its
    elements in memory order and its number of dimensions: every operation below works
    element by element. *)
From Coq Require Import QArith Qabs.
From Verif.Base Require Import Py Val Numpy Float.
From Verif.Model Require Import Types Scaling.
Open Scope Z_scope.

(** ** numpy *)
(** types of arrays: those of Model/Scaling.v, and arrays of Python integers *)
Inductive ptype := TNum (d : dt) | TObj.
(** elements: of integer types and of Python integers; of float types *)
Inductive elt := EI (z : Z) | EF (x : num).
Record parr := mkP { ptype_of : ptype; ndim : nat; cells : list (elt * bool) }.
(** [dtype.kind], as an order (u < i < f < O) *)
Definition kind (t : ptype) : Z :=
  match t with TNum (DInt false _) => 0 | TNum (DInt true _) => 1 | TNum _ => 2 | TObj => 3 end.
Definition itemsize (t : ptype) : Z := match t with TNum (DInt _ b) => b | TNum DF32 => 4 | TNum DF64 => 8 | TObj => 8 end.
Definition ptype_eqb (a b : ptype) : bool := (kind a =? kind b) && (itemsize a =? itemsize b).
(** a float of type [d] nearest to [q], infinite when too large *)
Definition fconv (d : dt) (q : Q) : num :=
  let r := round_to d q in if Qle_bool (Qabs r) (fmax d) then Fin r else Inf (q_sign q <? 0).
Definition num_eqb (a b : num) : bool :=
  match a, b with Fin x, Fin y => Qeq_bool x y | Inf s, Inf s' => Bool.eqb s s' | _, _ => false end.
(** multiplication and addition of doubles; the sign of zero is not modelled *)
Definition num_sign (x : num) : Z := match x with Fin q => q_sign q | Inf true => -1 | Inf false => 1 | NaN => 0 end.
Definition fmul (a b : num) : num :=
  match a, b with
  | Fin x, Fin y => fconv DF64 (x * y)%Q
  | NaN, _ | _, NaN => NaN
  | _, _ => let s := num_sign a * num_sign b in if s =? 0 then NaN else Inf (s <? 0)
  end.
Definition fadd (a b : num) : num :=
  match a, b with
  | Fin x, Fin y => fconv DF64 (x + y)%Q
  | NaN, _ | _, NaN => NaN
  | Inf s, Inf s' => if Bool.eqb s s' then a else NaN
  | Inf _, _ => a
  | _, Inf _ => b
  end.
(** [astype]: between integer types modulo the width; Python integers are checked *)
Definition cast_elt (t t' : ptype) (x : elt) : res elt :=
  match x, t' with
  | EI z, TNum (DInt s b) =>
      match t with
      | TObj => if in_range s b z then Ok (EI z) else Err OverflowError
      | _ => Ok (EI (wrap s b z))
      end
  | EI z, TNum d => Ok (EF (fconv d (inject_Z z)))
  | EI z, TObj => Ok (EI z)
  | EF _, TNum (DInt _ _) => Err TypeError (* not used *)
  | EF (Fin q), TNum d => Ok (EF (fconv d q))
  | EF v, _ => Ok (EF v)
  end.
Definition pastype (t' : ptype) (a : parr) : res parr :=
  do l <- rmap (fun c => do x <- cast_elt (ptype_of a) t' (fst c); Ok (x, snd c)) (cells a);
  Ok (mkP t' (ndim a) l).
(** the type of (integers op integers) *)
Definition promote_int (s1 : bool) (b1 : Z) (s2 : bool) (b2 : Z) : ptype :=
  if Bool.eqb s1 s2 then TNum (DInt s1 (Z.max b1 b2))
  else
    let sb := if s1 then b1 else b2 in
    let ub := if s1 then b2 else b1 in
    if ub <? sb then TNum (DInt true sb) else if 8 <=? ub then TNum DF64 else TNum (DInt true (2 * ub)).
(** np.result_type *)
Definition result_type (a b : ptype) : ptype :=
  match a, b with
  | TObj, _ | _, TObj => TObj
  | TNum (DInt s1 b1), TNum (DInt s2 b2) => promote_int s1 b1 s2 b2
  | _, _ => TNum DF64
  end.
(** np.can_cast(a, b, 'same_kind'), which in-place operations require *)
Definition same_kind (a b : ptype) : bool := kind a <=? kind b.
Definition is_masked (a : parr) : bool := existsb snd (cells a).

(** ** 1073-1140 [get_min_integer_numpy_type] *)
Definition min_int_type (data_min abs_max : Z) : ptype :=
  if abs_max <=? 127 then TNum (DInt true 1)
  else if abs_max <=? 255 then (if 0 <=? data_min then TNum (DInt false 1) else TNum (DInt true 2))
  else if abs_max <=? 32767 then TNum (DInt true 2)
  else if abs_max <=? 65535 then (if 0 <=? data_min then TNum (DInt false 2) else TNum (DInt true 4))
  else if abs_max <=? 2147483647 then TNum (DInt true 4)
  else if abs_max <=? 4294967295 then (if 0 <=? data_min then TNum (DInt false 4) else TNum (DInt true 8))
  else if abs_max <=? 9223372036854775807 then TNum (DInt true 8)
  else if (abs_max <=? 18446744073709551615) && (0 <=? data_min) then TNum (DInt false 8)
  else TObj.
(** min() and max() *)
Definition fold1 (f : Z -> Z -> Z) (l : list Z) : res Z :=
  match l with [] => Err ValueError | x :: l => Ok (fold_left f l x) end.
(** of a Python list (1096-1098) *)
Definition min_type_list (l : list Z) : res ptype :=
  do lo <- fold1 Z.min l; do hi <- fold1 Z.max l;
  Ok (min_int_type lo (Z.max (Z.abs lo) (Z.abs hi))).
(** of an array (1092-1094): the elements are numbers of the type of the array, and
    [abs] stays in that type *)
Definition np_abs (t : ptype) (z : Z) : Z :=
  match t with TNum (DInt s b) => wrap s b (Z.abs z) | _ => Z.abs z end.
Definition min_type_array (t : ptype) (l : list Z) : res ptype :=
  do lo <- fold1 Z.min l; do hi <- fold1 Z.max l;
  Ok (min_int_type lo (Z.max (np_abs t lo) (np_abs t hi))).

(** ** 994-1070 [mask_special_constants] (numeric data) *)
(** a value of a label, cast by pdr/pds4_tools/utils/helpers.py:15-39; not-a-number
    and infinite values are not modelled *)
Inductive special := CI (z : Z) | CF (q : Q) | CStr (s : str).
(** kind of np.asarray(value), 4 for text *)
Definition special_kind (c : special) : Z :=
  match c with
  | CI z => if in_range true 8 z then 1 else if in_range false 8 z then 0 else 3
  | CF _ => 2
  | CStr _ => 4
  end.
(** 1059-1061 *)
Definition compatible (t : ptype) (c : special) : bool :=
  (kind t =? special_kind c)
  || ((kind t <=? 2) && (special_kind c <=? 1))
  || (kind t =? 3) || (special_kind c =? 3).
(** data == value: exact for integers; a number compared with floats takes their type *)
Definition elt_is (t : ptype) (c : special) (x : elt) : bool :=
  match x, c with
  | EI z, CI c => z =? c
  | EI z, CF q => Qeq_bool (inject_Z z) q
  | EF v, CI c => num_eqb v (fconv (match t with TNum d => d | TObj => DF64 end) (inject_Z c))
  | EF v, CF q => num_eqb v (fconv (match t with TNum d => d | TObj => DF64 end) q)
  | _, CStr _ => false
  end.
(** 1066 [set_fill_value]: the value must be one of the type of the array, else
    TypeError.  Integers too large for a double are not modelled for float arrays. *)
Definition fill_ok (t : ptype) (c : special) : bool :=
  match t, c with TNum (DInt s b), CI z => in_range s b z | _, _ => true end.
Definition valid_key (k : str) : bool := startswith $"valid_" k.
(** the array has a mask (possibly without any masked element), as ndarrays have not:
    [None] when no constant was applied *)
Fixpoint mask_loop (t : ptype) (sc : list (str * special)) (l : list (elt * bool)) (seen : bool)
  : res (list (elt * bool) * bool) :=
  match sc with
  | [] => Ok (l, seen)
  | (k, c) :: sc =>
      if negb (valid_key k) && compatible t c then
        if fill_ok t c then mask_loop t sc (map (fun p => (fst p, snd p || elt_is t c (fst p))) l) true
        else Err TypeError
      else mask_loop t sc l seen
  end.
Definition mask_constants (sc : list (str * special)) (a : parr) : res (parr * bool) :=
  do r <- mask_loop (ptype_of a) sc (cells a) false;
  Ok (mkP (ptype_of a) (ndim a) (fst r), snd r).

(** ** 871-973 [get_scaled_numpy_type], given data *)
Definition float_type (t : ptype) : bool := kind t =? 2.
Definition sf (c : option scalar) : bool := match c with Some (SF _) => true | _ => false end.
Definition no_scaling (c : option scalar) : bool := match c with None => true | Some c => Qeq_bool (scalar_q c) 1 end.
Definition no_offset (c : option scalar) : bool := match c with None => true | Some c => Qeq_bool (scalar_q c) 0 end.
Definition elt_z (x : elt) : Z := match x with EI z => z | EF _ => 0 end.
(** 1143-1200 [is_pds_integer_data], given data only.  For arrays of Python integers
    the first (unmasked) element is looked at; that of an array of more dimensions
    without mask is an array *)
Definition is_integer_data (a : parr) : bool :=
  match ptype_of a with
  | TNum (DInt _ _) => true
  | TNum _ => false
  | TObj =>
      if is_masked a then match filter (fun c => negb (snd c)) (cells a) with (EI _, _) :: _ => true | _ => false end
      else match cells a with (EI _, _) :: _ => Nat.eqb (ndim a) 1 | _ => false end
  end.
Definition scaled_type (a : parr) (s o : option scalar) (include_unscaled : bool) : res ptype :=
  if no_scaling s && no_offset o then Ok (ptype_of a)
  else if float_type (ptype_of a) || sf s || sf o then Ok (TNum DF64)
  else if is_integer_data a then
    let si := match s with Some (SI z) => z | _ => 1 end in
    let oi := match o with Some (SI z) => z | _ => 0 end in
    let data := map (fun c => elt_z (fst c)) (cells a) in
    do lo <- fold1 Z.min data; do hi <- fold1 Z.max data;
    let slo := lo * si + oi in
    let shi := hi * si + oi in
    min_type_list (if include_unscaled then [lo; hi; slo; shi] else [slo; shi])
  else Err ValueError.

(** ** 819-868 [adjust_array_data_type]; also tells whether the array was copied *)
Definition adjust (a : parr) (s o : option scalar) : res (parr * bool) :=
  do t <- scaled_type a s o true;
  let t0 := ptype_of a in
  if negb (ptype_eqb t0 t) && negb (kind t0 =? 3) && (negb (kind t0 =? kind t) || (itemsize t0 <? itemsize t)) then
    do b <- pastype t a; Ok (b, true)
  else Ok (a, false).

(** ** 787-801: [data *= np.array(factor)] and [data += np.array(offset)].
    Masked elements are combined with 1 (0) and so stay as they are. *)
Definition zop (o : op) (x c : Z) : Z := match o with OMul => x * c | OAdd => x + c end.
Definition fop (o : op) : num -> num -> num := match o with OMul => fmul | OAdd => fadd end.
Definition wrap_t (t : ptype) (z : Z) : Z := match t with TNum (DInt s b) => wrap s b z | _ => z end.
Definition elt_op (o : op) (t r : ptype) (c : scalar) (x : elt) : elt :=
  match x, c with
  | EI z, SI k => EI (wrap_t t (wrap_t r (zop o z k)))
  | EF v, _ => EF (fop o v (fconv DF64 (scalar_q c)))
  | EI _, SF _ => x (* not used: the operation fails *)
  end.
Definition inplace_op (o : op) (a : parr) (c : scalar) : res parr :=
  do tc <- match c with SI z => min_type_list [z] | SF _ => Ok (TNum DF64) end;
  let r := result_type (ptype_of a) tc in
  if same_kind r (ptype_of a) then
    Ok (mkP (ptype_of a) (ndim a)
          (map (fun p : elt * bool => if snd p then p else (elt_op o (ptype_of a) r c (fst p), snd p)) (cells a)))
  else Err TypeError.

(** ** 741-816 [apply_scaling_and_value_offset].  Gives what is left in the array that
    was passed, and the result.  Operations are in place unless [adjust] copied. *)
Definition put_values (a b : parr) : parr := (* the values of [b] written into [a] *)
  mkP (ptype_of a) (ndim a) (map (fun p : (elt * bool) * (elt * bool) => (fst (snd p), snd (fst p))) (combine (cells a) (cells b))).
Definition set_mask (m : list bool) (a : parr) : parr :=
  mkP (ptype_of a) (ndim a) (combine (map fst (cells a)) m).
(** 803-812 *)
Definition downcast (a : parr) : res parr :=
  if is_integer_data a then
    do t <- min_type_array (ptype_of a) (map (fun c => elt_z (fst c)) (cells a));
    pastype t a
  else Ok a.
Definition opt_op (o : op) (skip : bool) (c : option scalar) (a : parr) : res parr :=
  if skip then Ok a else match c with Some c => inplace_op o a c | None => Ok a end.
Definition apply_scaling (a : parr) (s o : option scalar) (sc : option (list (str * special))) : parr * res parr :=
  if no_scaling s && no_offset o then (a, Ok a)
  else
    let saved := match sc with Some _ => if is_masked a then Some (map snd (cells a)) else None | None => None end in
    match (match sc with Some l => do r <- mask_constants l a; Ok (fst r) | None => Ok a end) : res parr with
    | Err e => (a, Err e)
    | Ok m =>
        match adjust m s o with
        | Err e => (a, Err e)
        | Ok (m0, copied) =>
            let left b := if copied then a else put_values a b in
            match opt_op OMul (no_scaling s) s m0 with
            | Err e => (left m0, Err e)
            | Ok m1 =>
                match opt_op OAdd (no_offset o) o m1 with
                | Err e => (left m1, Err e)
                | Ok m2 =>
                    (left m2, do r <- downcast m2;
                              Ok match saved with Some k => set_mask k r | None => r end)
                end
            end
        end
    end.

(** ** Data.get_scaled for PDS4 (pdr.py:856-884, _scaling.py:180-204), of an array that
    is not in a FITS file.  The loaded object (714-749) is a view of the array of the
    structure: the state is that array.  The result of the first is the array left. *)
Record meta_array := mkMeta { scaling_factor : option scalar; value_offset : option scalar;
                              Special_Constants : option (list (str * special)) }.
Definition pds4_get_scaled (m : meta_array) (a : parr) : parr * res parr :=
  apply_scaling a (scaling_factor m) (value_offset m) (Special_Constants m).

(** ** Bit masks: read_arrays.py:84-122, called at 214-219 with the digits of the mask
    padded with zeros to the width of the type ([str.zfill]) *)
Definition zfill (n : nat) (s : str) : str := repeat "0"%char (n - length s) ++ s.
Definition bit_value (s : str) : Z := fold_left (fun z c => 2 * z + (if Ascii.eqb c "1"%char then 1 else 0)) s 0.
(** [data[i] &= bit_mask]: the mask must be a value of the type, else OverflowError *)
Definition and_elt (t : ptype) (b : Z) (x : elt) : res elt :=
  match t, x with
  | TNum (DInt s w), EI z => if in_range s w b then Ok (EI (Z.land z b)) else Err OverflowError
  | TObj, EI z => Ok (EI (Z.land z b))
  | _, _ => Err TypeError
  end.
(** 119-120, for the elements of [m] chosen by [which] *)
Definition and_where (a : parr) (v : Z) (which : nat -> elt * bool -> bool) (m : list (elt * bool)) : res parr :=
  do l <- rmap (fun p : nat * (elt * bool) =>
                  if which (fst p) (snd p) then do x <- and_elt (ptype_of a) v (fst (snd p)); Ok (x, false)
                  else Ok (fst (snd p), false)) (combine (seq 0 (length m)) m);
  Ok (mkP (ptype_of a) (ndim a) l).
(** [bits] is the text of the mask, of zeros and ones.  The mask of an array none of
    whose elements are masked is the single value False, and np.where of a single
    value is [(array([0]),)] up to numpy 2.0 and a ValueError since ([new_numpy]).  Arrays
    without elements are not modelled. *)
Definition apply_bitmask (new_numpy : bool) (sc : option (list (str * special))) (bits : str) (a : parr) : res parr :=
  let b := zfill (Z.to_nat (8 * itemsize (ptype_of a))) bits in
  if negb (has_char "0"%char b) then Ok a
  else
    let v := bit_value b in
    match sc with
    | None => and_where a v (fun _ _ => true) (cells a)
    | Some l =>
        do r <- mask_constants l a;
        if negb (snd r) then Err AttributeError (* .mask of an ndarray *)
        else if is_masked (fst r) then and_where a v (fun _ p => negb (snd p)) (cells (fst r))
        else if new_numpy then Err ValueError
        else and_where a v (fun i _ => Nat.eqb i 0) (cells a)
    end.
