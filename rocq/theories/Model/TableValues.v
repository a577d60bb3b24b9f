(** Model of the values of binary PDS3 tables: pdr/pd_utils.py:157-218
    ([insert_sample_types_into_df], [fmtdef_to_dtype]), 246-275 ([booleanize_booleans],
    [convert_ebcdic]), 306-368 ([convert_ibm_reals], [convert_vax_reals]);
    pdr/loaders/table.py:66-136 ([_drop_placeholders], [read_table], [_interpret_as_binary]);
    pdr/loaders/queries.py:560-610 ([_probably_ascii], [parse_table_structure]).
    Not modelled: special sample types (check_special_sample_type finds none), nested
    arrays, bit columns (see Model/Bits.v), tables of text (NotImplementedError here).
    Native byte order is little; numpy's arithmetic is that of numpy 2. *)
From Coq Require Import QArith.
From Verif.Base Require Import Py Val Numpy Float.
From Verif.Model Require Import Types Scaling Pds4Types Pds4Values Ibm Table Array Pds4Frame.
Open Scope Z_scope.

(** ** Columns of a frame: their type and their values *)
Inductive vcell := VNum (x : elt) | VBytes (s : str) | VText (s : str) | VBool (b : bool).
Inductive coltype := CT (d : dt) | CBool | CObject.
Record framecol := mkFC { k_name : str; k_type : coltype; k_values : list vcell }.

(** ** pd_utils.py:170-193: the numpy type of a row's cells; a type that is missing has no
    replace(): AttributeError *)
Definition type_name (r : frow) : res str := match r_type r with Some (PStr s) => Ok s | _ => Err AttributeError end.
Definition cell_type (r : frow) : res tmeaning :=
  do ty <- type_name r;
  do dt <- sample_types ty (Z.to_nat (cell_width r)) true;
  np_dtype dt.
(** queries.py:560-568 and loaders/_helpers.py:22-28 *)
Definition looks_like_ascii (block : multidict) (name : str) : bool :=
  contains $"SPREADSHEET" name || contains $"ASCII" name ||
  match md_get block $"INTERCHANGE_FORMAT" with Some (PStr s) => str_eqb s $"ASCII" | _ => false end.
Definition probably_ascii (block : multidict) (rows : list orow) (name : str) : bool :=
  existsb (fun o => match r_type (o_row o) with Some (PStr s) => contains $"ASCII" s | _ => false end) rows ||
  looks_like_ascii block name.

(** ** pd_utils.py:207-218 and np_utils.py:72-93: a structured type, and the bytes of its
    fields in the rows of the file.  numpy refuses names used twice. *)
Definition tail_name : str := $"PLACEHOLDER_0".
Definition row_size (rows : list (orow * tmeaning)) (tail : option (Z * Z)) : Z :=
  fold_left Z.max (map (fun x => o_off (fst x) + Z.of_nat (t_size (snd x))) rows ++
                   match tail with Some (off, n) => [off + n] | None => [] end) 0.
Definition rows_in (in_memory : bool) (file : list ascii) (start count w : nat) : res nat :=
  let rest := skipn start file in
  if (w =? 0)%nat then Err ValueError
  else if in_memory then
    let l := List.length (firstn (count * w) rest) in
    if (l mod w =? 0)%nat then Ok (l / w)%nat else Err ValueError
  else Ok (Nat.min count (List.length rest / w)).
Definition field_bytes (file : list ascii) (start : nat) (w : Z) (n : nat) (x : orow * tmeaning) : list (list ascii) :=
  map (fun k => cell_bytes file (Z.of_nat start) w k (o_off (fst x)) (Z.of_nat (t_size (snd x)))) (seq 0 n).

(** ** Conversions of the columns *)
Section Foreign.
(** vax.from_vax32 on one 32-bit integer, and one byte of codepage 500 *)
Variable from_vax32 : N -> num.
Variable cp500 : ascii -> ascii.
(** re.match("IBM.*REAL", name) *)
Definition matches (prefix name : str) : bool := startswith prefix name && contains $"REAL" (skipn (length prefix) name).
Definition int_cell (c : cell) : res N := match c with CNum (EI z) => Ok (Z.to_N z) | _ => Err TypeError end.
Definition plain_cell (c : cell) : vcell := match c with CNum x => VNum x | CBytes s => VBytes s end.
Definition plain_type (t : tmeaning) : coltype :=
  match t_kind t with
  | KSigned => CT (DInt true (Z.of_nat (t_size t)))
  | KUnsigned => CT (DInt false (Z.of_nat (t_size t)))
  | KFloat => CT (if Nat.eqb (t_size t) 4 then DF32 else DF64)
  | KBytes | KVoid => CObject
  end.
Definition truthy (c : vcell) : bool :=
  match c with
  | VNum (EI z) => negb (z =? 0)
  | VNum (EF (Fin q)) => negb (Qeq_bool q 0)
  | VNum (EF _) => true
  | VBytes s | VText s => match s with [] => false | _ => true end
  | VBool b => b
  end.
(** lines 306-341, 354-368, 259-275, 246-256 in the order of table.py:129-134 *)
Definition convert_column (ty : str) (bytes : Z) (t : tmeaning) (cells : list (list ascii)) : res (coltype * list vcell) :=
  let raw := map (np_cell t) cells in
  do c <- (if matches $"IBM" ty then
             do ws <- rmap int_cell raw;
             (* the maximum of no values *)
             do _ <- (if (bytes =? 4) && match ws with [] => true | _ => false end then Err ValueError else Ok tt);
             let d := if (bytes =? 4) && negb (too_wide (map (ibm32_to_np_f32 round64) ws)) then DF32 else DF64 in
             Ok (CT d, map (fun q => VNum (EF (Fin q))) (convert_ibm_column round64 round32 bytes ws))
           else if matches $"VAX" ty then
             do ws <- rmap int_cell raw; Ok (CT DF32, map (fun w => VNum (EF (from_vax32 w))) ws)
           else Ok (plain_type t, map plain_cell raw));
  do c <- (if contains $"EBCDIC" ty
           then do vs <- rmap (fun v => match v with VBytes s => Ok (VText (map cp500 s)) | _ => Err AttributeError end) (snd c); Ok (CObject, vs)
           else Ok c);
  Ok (if str_eqb ty $"BOOLEAN" then (CBool, map (fun v => VBool (truthy v)) (snd c)) else c).

(** ** table.py:113-136 *)
Definition rows_count (block : multidict) : res nat :=
  match md_get block $"ROWS" with Some PNone | None => Ok 1%nat | Some v => axis_size v end.
Definition interpret_as_binary (in_memory : bool) (file : list ascii) (block : multidict) (start : nat)
    (t : list orow * option (Z * Z)) : res (list framecol) :=
  let '(rows, tail) := t in
  do types <- rmap (fun o => cell_type (o_row o)) rows;
  if has_dup (map (fun o => r_name (o_row o)) rows ++ match tail with Some _ => [tail_name] | None => [] end) then Err ValueError
  else
    do count <- rows_count block;
    let fields := combine rows types in
    let w := row_size fields tail in
    do n <- rows_in in_memory file start count (Z.to_nat w);
    rmap (fun x => do ty <- type_name (o_row (fst x));
                   do c <- convert_column ty (r_bytes (o_row (fst x))) (snd x) (field_bytes file start w n x);
                   Ok (mkFC (r_name (o_row (fst x))) (fst c) (snd c))) fields.
(** table.py:66-69, after which the padding of the rows is gone too *)
Definition drop_placeholders (t : list framecol) : list framecol := filter (fun c => negb (contains $"PLACEHOLDER" (k_name c))) t.

(** ** table.py:98-109: factors and offsets *)
(** one column of the format definition as pandas keeps it: integers if every entry is
    one; else reals, if all are numbers; missing ones are NaN ([None]) *)
Inductive entry_value := ENum (c : scalar) | EOther.
Definition all_ints (l : list (option pv)) : bool := forallb (fun v => match v with Some (PInt _) => true | _ => false end) l.
Definition all_numbers (l : list (option pv)) : bool :=
  forallb (fun v => match v with Some (PInt _) | Some (PFloat _) | Some PNone | None => true | _ => false end) l.
Definition double (q : Q) : Q := match fconv DF64 q with Fin r => r | _ => q end.
Definition pd_entry (l : list (option pv)) (v : option pv) : option entry_value :=
  match v with
  | None | Some PNone => None
  | Some (PInt z) => Some (ENum (if all_ints l || negb (all_numbers l) then SI z else SF (double (inject_Z z))))
  | Some (PFloat q) => Some (ENum (SF q))
  | Some _ => Some EOther
  end.
(** float arithmetic of numpy: rounded, infinite when too large *)
Definition num_op (o : op) (d : dt) (x y : num) : num :=
  match x, y with
  | NaN, _ | _, NaN => NaN
  | Fin a, Fin b => fconv d (q_op o a b)
  | Inf n, Inf m => match o with OMul => Inf (xorb n m) | OAdd => if Bool.eqb n m then Inf n else NaN end
  | Inf n, Fin q | Fin q, Inf n =>
      match o with OAdd => Inf n | OMul => match q_sign q with Z0 => NaN | Zpos _ => Inf n | Zneg _ => Inf (negb n) end end
  end.
Definition elt_op (o : op) (d : dt) (c : scalar) (x : elt) : elt :=
  match d, c, x with
  | DInt s b, SI z, EI v => EI (wrap s b (match o with OMul => v * z | OAdd => v + z end))
  | _, _, _ => let d' := promote d c in
      EF (num_op o d' (match x with EI v => fconv d' (inject_Z v) | EF y => y end) (fconv d' (scalar_q c)))
  end.
(** Series op number.  Columns that are not of numbers: TypeError here (a byte string times
    an integer is repeated in Python; not modelled); booleans count as errors too *)
Definition series_op (o : op) (c : entry_value) (col : framecol) : res framecol :=
  match k_type col, c with
  | CT d, ENum c =>
      do _ <- match d, c with
      | DInt s b, SI z => if in_range s b z then Ok tt else Err OverflowError
      | _, _ => Ok tt
              end;
      Ok (mkFC (k_name col) (CT (promote d c)) (map (fun v => match v with VNum x => VNum (elt_op o d c x) | _ => v end) (k_values col)))
  | _, _ => Err TypeError
  end.
(** record.get(key) is true, and not null: zero is neither *)
Definition given (v : option entry_value) : option entry_value :=
  match v with
  | Some (ENum c) => if Qeq_bool (scalar_q c) 0 then None else v
  | _ => v
  end.
Definition apply_if (o : op) (v : option entry_value) (col : framecol) : res framecol :=
  match given v with Some c => series_op o c col | None => Ok col end.
(** the row of a column is looked up by its name *)
Definition scale_column (rows : list orow) (tail : option (Z * Z)) (col : framecol) : res framecol :=
  let pad := match tail with Some _ => [None] | None => [] end in
  let entry key := fun r : frow => pd_entry (map (fun o => key (o_row o)) rows ++ pad) (key r) in
  match find (fun o => str_eqb (r_name (o_row o)) (k_name col)) rows with
  | None => Err IndexError
  | Some o =>
      do col <- apply_if OMul (entry r_scale (o_row o)) col;
      apply_if OAdd (entry r_shift (o_row o)) col
  end.
(** ** table.py:72-110 [read_table] for a binary table *)
Definition read_table (load : pv -> res (list (str * pv))) (bits : field -> multidict -> res field) (fuel : nat)
    (in_memory : bool) (file : list ascii) (block : multidict) (name : str) (start : nat) : res (list framecol) :=
  do t <- parse_table_structure load bits fuel block name;
  if probably_ascii block (fst t) name then Err NotImplementedError_
  else
    do table <- interpret_as_binary in_memory file block start t;
    rmap (scale_column (fst t) (snd t)) (drop_placeholders table).
End Foreign.
