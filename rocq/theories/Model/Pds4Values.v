(** Model of the values of PDS4 arrays and table fields: the types and conversions of
    pdr/pds4_tools/reader/data_types.py (lines cited without a file name), the reading of
    arrays, pdr/pds4_tools/reader/read_arrays.py, and the axes of an array,
    pdr/pds4_tools/reader/array_objects.py.  [native] byte order is little. *)
From Coq Require Import QArith.
From Verif.Base Require Import Py Val Numpy Float.
From Verif.Model Require Import Types PvlLiteral Xml Scaling Pds4Types.
Open Scope Z_scope.

(** ** 22-55 [PDS_NUMERIC_TYPES]: byte order, kind and size of the numpy type *)
Inductive vkind := VInt (signed : bool) | VFloat | VComplex | VObject | VBool.
Definition vtype := (order_ * vkind * nat)%type.
Definition PDS_NUMERIC_TYPES : list (str * vtype) :=
  [($"IEEE754MSBSingle", (Big, VFloat, 4%nat)); ($"IEEE754MSBDouble", (Big, VFloat, 8%nat));
   ($"SignedMSB2", (Big, VInt true, 2%nat)); ($"SignedMSB4", (Big, VInt true, 4%nat)); ($"SignedMSB8", (Big, VInt true, 8%nat));
   ($"UnsignedMSB2", (Big, VInt false, 2%nat)); ($"UnsignedMSB4", (Big, VInt false, 4%nat)); ($"UnsignedMSB8", (Big, VInt false, 8%nat));
   ($"ComplexMSB8", (Big, VComplex, 8%nat)); ($"ComplexMSB16", (Big, VComplex, 16%nat));
   ($"IEEE754LSBSingle", (Little, VFloat, 4%nat)); ($"IEEE754LSBDouble", (Little, VFloat, 8%nat));
   ($"SignedLSB2", (Little, VInt true, 2%nat)); ($"SignedLSB4", (Little, VInt true, 4%nat)); ($"SignedLSB8", (Little, VInt true, 8%nat));
   ($"UnsignedLSB2", (Little, VInt false, 2%nat)); ($"UnsignedLSB4", (Little, VInt false, 4%nat)); ($"UnsignedLSB8", (Little, VInt false, 8%nat));
   ($"ComplexLSB8", (Little, VComplex, 8%nat)); ($"ComplexLSB16", (Little, VComplex, 16%nat));
   ($"SignedByte", (Little, VInt true, 1%nat)); ($"UnsignedByte", (Little, VInt false, 1%nat));
   ($"ASCII_Real", (Little, VFloat, 8%nat)); ($"ASCII_Integer", (Little, VInt true, 8%nat));
   ($"ASCII_NonNegative_Integer", (Little, VInt false, 8%nat));
   ($"ASCII_Numeric_Base2", (Little, VObject, 8%nat)); ($"ASCII_Numeric_Base8", (Little, VObject, 8%nat));
   ($"ASCII_Numeric_Base16", (Little, VObject, 8%nat)); ($"ASCII_Boolean", (Little, VBool, 1%nat))].
(** dict.get *)
Fixpoint lookup_type (l : list (str * vtype)) (name : str) : option vtype :=
  match l with [] => None | (k, t) :: l => if str_eqb k name then Some t else lookup_type l name end.
(** 75-190 [pds_to_numpy_type] of a type name alone: [None] is the type of byte strings
    without a length, of size 0 *)
Definition numpy_type (name : str) : option vtype := lookup_type PDS_NUMERIC_TYPES name.
Definition type_size (t : option vtype) : nat := match t with Some (_, _, w) => w | None => 0%nat end.
(** 1363-1364 issubtype('binary') *)
Definition is_binary_type (name : str) : bool :=
  match numpy_type name with Some _ => negb (contains $"ascii" (lower name)) | None => false end.

(** ** np.frombuffer *)
(** an element: a number, a complex number or a truth value *)
Inductive pix := PElt (x : elt) | PCpx (re im : num) | PTruth (b : bool).
Definition byte_val (c : ascii) : Z := Z.of_nat (nat_of_ascii c).
Fixpoint le_value (bs : list ascii) : Z := match bs with [] => 0 | b :: bs => byte_val b + 256 * le_value bs end.
Definition word (o : order_) (bs : list ascii) : Z := match o with Big => le_value (rev bs) | _ => le_value bs end.
(** a binary floating-point number of [e] exponent and [m] fraction bits *)
Definition ieee (e m u : Z) : num :=
  let f := u mod 2 ^ m in
  let x := (u / 2 ^ m) mod 2 ^ e in
  let s := Z.odd (u / 2 ^ (m + e)) in
  if x =? 2 ^ e - 1 then (if f =? 0 then Inf s else NaN)
  else
    let c := if x =? 0 then f else 2 ^ m + f in
    Fin (inject_Z (if s then - c else c) * two_to (Z.max x 1 - (2 ^ (e - 1) - 1) - m)).
Definition ieee_of (w : nat) (u : Z) : num := if Nat.eqb w 4 then ieee 8 23 u else ieee 11 52 u.
Definition decode (t : vtype) (bs : list ascii) : pix :=
  match t with
  | (o, VInt s, w) => PElt (EI (wrap s (Z.of_nat w) (word o bs)))
  | (o, VFloat, w) => PElt (EF (ieee_of w (word o bs)))
  | (o, VComplex, w) =>
      let h := Nat.div w 2 in
      PCpx (ieee_of h (word o (firstn h bs))) (ieee_of h (word o (skipn h bs)))
  | (o, VBool, _) => PTruth (negb (word o bs =? 0))
  | (_, VObject, _) => PTruth false (* never reached *)
  end.
Definition chunks (w : nat) (bs : list ascii) : list (list ascii) :=
  map (fun k => firstn w (skipn (k * w) bs)) (seq 0 (Nat.div (length bs) w)).
(** ValueError for a type of size 0 or of Python objects, and for a partial last element.
    389-413 [data_type_convert_array] *)
Definition frombuffer (t : option vtype) (bs : list ascii) : res (list pix) :=
  match t with
  | None | Some (_, VObject, _) => Err ValueError
  | Some (o, k, w) =>
      if Nat.eqb (Nat.modulo (length bs) w) 0 then Ok (map (decode (o, k, w)) (chunks w bs)) else Err ValueError
  end.

(** ** Arrays *)
(** the meta data of an array: its Axis_Arrays in the order of the label as
    (sequence_number, elements), read_arrays.py:22-81 and array_objects.py:388-467.
    Numbers of elements and the offset are natural numbers (a negative offset is an error
    of the label) *)
Record array_meta := mkArray {
  a_offset : nat; a_axes : list (Z * nat); a_type : str;
  a_bitmask : option str; a_special : option (list (str * special)) }.
(** array_objects.py:464-465: sorted() by sequence_number, which is stable *)
Fixpoint insert_axis (x : Z * nat) (l : list (Z * nat)) : list (Z * nat) :=
  match l with [] => [x] | y :: r => if fst x <=? fst y then x :: l else y :: insert_axis x r end.
Definition sort_axes (l : list (Z * nat)) : list (Z * nat) := fold_right insert_axis [] l.
(** array_objects.py:412-424 *)
Definition dimensions (m : array_meta) : list nat := map snd (sort_axes (a_axes m)).
(** read_arrays.py:22-81 [_read_array_byte_data]: np.fromfile reads no further than the
    end of the file *)
Definition read_array_bytes (m : array_meta) (file : list ascii) : list ascii :=
  firstn (prod (dimensions m) * type_size (numpy_type (a_type m))) (skipn (a_offset m) file).
(** the type of the array, for the bit mask *)
Definition ptype_of_v (k : vkind) (w : nat) : ptype :=
  match k with
  | VInt s => TNum (DInt s (Z.of_nat w))
  | VFloat => TNum (if Nat.eqb w 4 then DF32 else DF64)
  | _ => TObj
  end.
Definition elt_of (p : pix) : elt := match p with PElt x => x | _ => EI 0 end.
(** read_arrays.py:211-219: bit masks of complex and boolean arrays (which the standard
    does not allow) are errors here *)
Definition mask_pixels (new_numpy : bool) (m : array_meta) (l : list pix) : res (list pix) :=
  match a_bitmask m, numpy_type (a_type m) with
  | Some bits, Some (_, VInt _ as k, w) | Some bits, Some (_, VFloat as k, w) =>
      do r <- apply_bitmask new_numpy (a_special m) bits (mkP (ptype_of_v k w) 1 (map (fun p => (elt_of p, false)) l));
      Ok (map (fun c => PElt (fst c)) (cells r))
  | Some bits, Some (_, _, w) => if has_char "0"%char (zfill (8 * w) bits) then Err TypeError else Ok l
  | _, _ => Ok l
  end.
Definition flat_array {A} (d : A) (l : list A) : arr A := mkArr [length l] (fun idx => nth (hd 0%nat idx) l d).
(** read_arrays.py:244-279 [read_array_data] and 121-241 [new_array], as pdr calls them
    (pdr.py:335-347, 746-749): unscaled, and without a mask for special constants *)
Definition read_array (new_numpy : bool) (m : array_meta) (file : list ascii) : res (arr pix) :=
  do l <- frombuffer (numpy_type (a_type m)) (read_array_bytes m file);
  do l <- mask_pixels new_numpy m l;
  let a := flat_array (PTruth false) l in
  if Nat.ltb 1 (length (dimensions m)) then reshape (dimensions m) a else Ok a.

(** ** Field values *)
(** white space of byte strings *)
Definition is_bspace (c : ascii) : bool := let n := N_of_ascii c in ((9 <=? n) && (n <=? 13) || (n =? 32))%N.
Definition bstrip (s : str) : str := strip_by is_bspace s.
(** int(bytes, base): the separators 28-31, white space of other strings, are not allowed *)
Definition int_bytes (base : Z) (s : str) : res Z :=
  if existsb (fun c => is_space c && negb (is_bspace c)) s then Err ValueError else py_int base s.
(** float(bytes).  Underscores must stand between digits; the sign of zero is not modelled. *)
Fixpoint drop_underscores (prev : option ascii) (s : str) : option str :=
  let digit o := match o with Some c => is_digit c | None => false end in
  match s with
  | [] => if match prev with Some c => Ascii.eqb c "_"%char | None => false end then None else Some []
  | c :: s' =>
      if Ascii.eqb c "_"%char then (if digit prev then drop_underscores (Some c) s' else None)
      else if match prev with Some p => Ascii.eqb p "_"%char | None => false end && negb (is_digit c) then None
      else match drop_underscores (Some c) s' with Some r => Some (c :: r) | None => None end
  end.
Definition digits_value (s : str) : Z := fold_left (fun z c => 10 * z + Z.of_N (match digit_val c with Some d => d | None => 0%N end)) s 0.
Definition take_sign (s : str) : bool * str :=
  match s with c :: s' => if Ascii.eqb c "-"%char then (true, s') else if Ascii.eqb c "+"%char then (false, s') else (false, s) | [] => (false, s) end.
Definition take_exponent (s : str) : res Z :=
  match s with
  | [] => Ok 0
  | c :: s' =>
      if Ascii.eqb (to_lower c) "e"%char then
        let (neg, s') := take_sign s' in
        match span is_digit s' with
        | ((_ :: _) as d, []) => Ok (if neg then - digits_value d else digits_value d)
        | _ => Err ValueError
        end
      else Err ValueError
  end.
(** the exact value of a decimal literal without sign *)
Definition decimal_value (s : str) : res Q :=
  let (ip, r) := span is_digit s in
  let (fp, r) := match r with c :: r' => if Ascii.eqb c "."%char then span is_digit r' else ([], r) | [] => ([], r) end in
  match ip ++ fp with
  | [] => Err ValueError
  | _ => do e <- take_exponent r; Ok (inject_Z (digits_value (ip ++ fp)) * Qpower 10 (e - Z.of_nat (length fp)))%Q
  end.
Definition float_bytes (s : str) : res num :=
  match drop_underscores None (bstrip s) with
  | None => Err ValueError
  | Some s =>
      let (neg, s) := take_sign s in
      if str_in (lower s) [$"inf"; $"infinity"] then Ok (Inf neg)
      else if str_eqb (lower s) $"nan" then Ok NaN
      else do q <- decimal_value s; Ok (fconv DF64 (if neg then - q else q)%Q)
  end.
(** the values of a field, with whether they are masked *)
Inductive fvals :=
| FInts (t : ptype) (l : list (Z * bool))
| FReals (l : list (num * bool))
| FBools (l : list (bool * bool))
| FRaw (t : vtype) (l : list pix)
| FText (l : list str).
(** byte strings of an array lose the zero bytes at their ends *)
Definition drop_nuls (s : str) : str := rstrip_by (fun c => Ascii.eqb c "000"%char) s.
Definition numeric_base (name : str) : Z :=
  if str_eqb name $"ASCII_Numeric_Base2" then 2 else if str_eqb name $"ASCII_Numeric_Base8" then 8
  else if str_eqb name $"ASCII_Numeric_Base16" then 16 else 10.
(** 417-545 [data_type_convert_table_ascii] without decode_strings.  In 519 every value
    differs from the text '0' (they are byte strings), so that all are converted.  A field of
    booleans one of which has an @, with empty ones, and complex types are not modelled. *)
Definition fill_nulls (mask_nulls : bool) (data : list str) : list (str * bool) :=
  map (fun d => if mask_nulls && match bstrip d with [] => true | _ => false end then ($"0", true) else (d, false)) data.
Definition convert_ascii (name : str) (mask_nulls : bool) (data : list str) : res fvals :=
  match numpy_type name with
  | None => Ok (FText (map drop_nuls data))
  | Some (_, k, w) =>
      let filled := fill_nulls mask_nulls data in
      let mask := map snd filled in
      let data := map fst filled in
      match k with
      | VBool =>
          let l := split_on "@"%char (replace $"false" $"0" (replace $"true" $"1" (join $"@" data))) in
          do l <- rmap (fun s => do z <- int_bytes 10 s; if in_range false 1 z then Ok (negb (z =? 0)) else Err OverflowError) l;
          Ok (FBools (combine l (mask ++ repeat false (length l))))
      | VFloat => do l <- rmap float_bytes data; Ok (FReals (combine l mask))
      | VInt s =>
          do l <- rmap (int_bytes (numeric_base name)) data;
          do l <- rmap (fun z => if in_range s (Z.of_nat w) z then Ok z else Err OverflowError) l;
          Ok (FInts (TNum (DInt s (Z.of_nat w))) (combine l mask))
      | VObject =>
          do l <- rmap (int_bytes (numeric_base name)) data;
          do t <- min_type_list l;
          Ok (FInts t (combine l mask))
      | VComplex => Err ValueError
      end
  end.
(** 548-586 [data_type_convert_table_binary] *)
Definition convert_binary (name : str) (data : list str) : res fvals :=
  if is_binary_type name then
    match numpy_type name with
    | Some t => do l <- frombuffer (Some t) (concat data); Ok (FRaw t l)
    | None => Err ValueError (* not reached *)
    end
  else convert_ascii name false data.
