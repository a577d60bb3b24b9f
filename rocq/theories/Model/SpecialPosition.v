(** Model of where special cases say an object is: the handlers chosen by check_special_offset and
    check_special_position (pdr/formats/checkers.py:59-123 and 577-701, whose conditions are
    Model/Checkers) and what pdr/func.py:specialize does with them for table_position
    (pdr/loaders/datawrap.py:113-119, 130-132) and data_start_byte.
    Not modelled: the warning of cassini.get_position.  The names of the products and pointers are in [asked], of Model/Checkers;
    [size] is the size of the file, os.path.getsize.  Simplification: fn is one name, not a list;
    ROWS and ROW_BYTES of cassini.get_offset that are not numbers are a TypeError. *)
From Verif.Base Require Import Py Val.
From Verif.Model Require Import Pvl Position.
From Verif.Model Require PvlLiteral.
From Verif.Model Require Dispatch Checkers.
Import Checkers.
Open Scope Z_scope.

Notation blk := (option multidict) (only parsing).
(** block[k]: None is not subscriptable *)
Definition block_item (b : blk) (k : str) : res pv := match b with Some m => item_ m k | None => Err TypeError end.
(** table_position(identifiers, block, target, name, start_byte) *)
Definition generic (p : asked) (b : blk) (target : pv) (start : Z) : res position :=
  table_position (ident p $"RECORD_BYTES") (ident p $"RECORD_TYPE") b target (object p) start.
(** table_props["length"] = v; table_props["start"] = z *)
Definition with_length (q : position) (v : pv) : position := mkPos (p_start q) v (p_as_rows q).
Definition with_start (q : position) (z : Z) : position := mkPos z (p_length q) (p_as_rows q).

(** lro.py:61-74 [rss_get_position] *)
Definition rss_get_position p b target start : res position :=
  do q <- generic p b target start;
  do n <- block_item b $"ROWS"; do r <- block_item b $"ROW_BYTES"; do r <- py_add r (PInt 1);
  do l <- py_mul n r; Ok (with_length q l).
(** mex.py:6-16 [marsis_get_position] *)
Definition marsis_get_position p b target start : res position :=
  do q <- generic p b target start; do l <- py_mul (ident p $"FILE_RECORDS") (PInt 143); Ok (with_length q l).
(** mex.py:97-110 [mrs_ddr_atmo_position] *)
Definition mrs_ddr_atmo_position p b target start : res position :=
  do q <- generic p b target start; do n <- block_item b $"ROWS"; do l <- py_mul (PInt 278) n; Ok (with_length q l).
(** mex.py:113-126 [mrs_get_position] *)
Definition mrs_get_position p b target start : res position :=
  do q <- generic p b target start;
  do r <- block_item b $"ROW_BYTES"; do r <- py_add r (PInt 1); do n <- block_item b $"ROWS";
  do l <- py_mul r n; Ok (with_length q l).
(** ground.py:39-53 [ebrocc_geom_get_position] *)
Definition ebrocc_geom_get_position p b target start : res position :=
  do q <- generic p b target start;
  do n <- block_item b $"ROWS"; do r <- block_item b $"ROW_BYTES"; do r <- py_add r (PInt 2);
  do l <- py_mul n r; Ok (with_length q l).
(** mro.py:153-167 [crism_mrdr_ancill_position] *)
Definition crism_mrdr_ancill_position p b target start : res position :=
  do q <- generic p b target start;
  do n <- block_item b $"ROWS"; do l <- py_mul n (ident p $"RECORD_BYTES"); Ok (with_length q l).
(** cassini.py:134-149 [rpws_ancil_position] *)
Definition rpws_ancil_position p b target start : res position :=
  do q <- generic p b target start;
  do l <- py_mul (ident p $"FILE_RECORDS") (ident p $"ROW_BYTES"); Ok (with_length q l).
(** target[1] - 1 *)
Definition second_less_one (target : pv) : res Z :=
  match target with
  | PTuple (_ :: v :: _) => py_sub1 v
  | PTuple _ | PStr [] | PStr [_] => Err IndexError
  | PDict _ | PMulti _ => Err KeyError
  | _ => Err TypeError
  end.
(** epoxi.py:6-19 [cart_model_get_position] *)
Definition cart_model_get_position p b target start : res position :=
  do q <- generic p b target start;
  do z <- second_less_one target; do n <- block_item b $"ROWS"; do l <- py_mul (PInt 79) n;
  Ok (with_length (with_start q (79 * z)) l).
(** phoenix.py:87-102 [phxao_header_position]; [block] without keys (None) is an AttributeError *)
Definition phxao_header_position (b : blk) : res position :=
  match b with Some m => Ok (mkPos 0 (extract_table_records m) true) | None => Err AttributeError end.
(** msx.py:3-17 [cube_envi_header_position] *)
Definition cube_envi_header_position p b target size start : res position :=
  do q <- generic p b target start; Ok (with_length q (PInt size)).
(** cassini.py:98-132 [get_position]: the length of a row, then of the table *)
Definition whole_rows (file : str) : bool := existsb (fun w => contains w file) [$"ULVS_DDP"; $"DLIS_AZ_DDP"; $"DLV_DDP"].
Definition cassini_get_position p b target size start : res position :=
  do q <- generic p b target start;
  do r <- (if whole_rows (file p) then Ok (ident p $"ROW_BYTES") else py_add (ident p $"ROW_BYTES") (PInt 1));
  do l <- py_mul (ident p $"ROWS") r;
  if str_eqb (object p) $"HEADER" then
    match l with PInt t => Ok (with_length (with_start q 0) (PInt (size - t))) | _ => Err TypeError end
  else Ok (with_length q l).

(** formats.m.f(...) of check_special_position; [None] is the None of
    vex_vera.py:87-100 [udr_table_special_position] *)
Definition position_handler (m f : str) p b target size start : res (option position) :=
  let is a c := str_eqb m a && str_eqb f c in
  let some (r : res position) := do q <- r; Ok (Some q) in
  if is $"mex" $"marsis_get_position" then some (marsis_get_position p b target start)
  else if is $"cassini" $"get_position" then some (cassini_get_position p b target size start)
  else if is $"cassini" $"rpws_ancil_position" then some (rpws_ancil_position p b target start)
  else if is $"lro" $"rss_get_position" then some (rss_get_position p b target start)
  else if is $"epoxi" $"cart_model_get_position" then some (cart_model_get_position p b target start)
  else if is $"mex" $"mrs_ddr_atmo_position" then some (mrs_ddr_atmo_position p b target start)
  else if is $"phoenix" $"phxao_header_position" then some (phxao_header_position b)
  else if is $"mex" $"mrs_get_position" then some (mrs_get_position p b target start)
  else if is $"ground" $"ebrocc_geom_get_position" then some (ebrocc_geom_get_position p b target start)
  else if is $"mro" $"crism_mrdr_ancill_position" then some (crism_mrdr_ancill_position p b target start)
  else if is $"msx" $"cube_envi_header_position" then some (cube_envi_header_position p b target size start)
  else if is $"vex_vera" $"udr_table_special_position" then Ok None
  else Err AttributeError.
(** specialize(table_position, check_special_position): the query table_props *)
Definition table_props p b target size start : res (option position) :=
  do a <- check Position p;
  match a with
  | Always m f | Maybe m f => position_handler m f p b target size start
  | _ => do q <- generic p b target start; Ok (Some q)
  end.

(** target[-1] - 1 *)
Definition last_less_one (target : pv) : res Z :=
  match target with
  | PTuple l => do v <- last_ l; py_sub1 v
  | PStr [] => Err IndexError
  | PDict _ | PMulti _ => Err KeyError
  | _ => Err TypeError
  end.
(** the pointer of the object in the label: data.metaget_("^" + name) *)
Definition pointer_of (p : asked) : pv := label p ($"^" ++ object p).
(** phoenix.py:144-150 [wcl_rdr_offset], msl_rems.py:29-36 [edr_offset], lro.py:23-34
    [get_crater_offset], msl_edr.py:35-49 [edr_offset] *)
Definition wcl_rdr_offset p : res Z := last_less_one (pointer_of p).
Definition rems_edr_offset p : res Z := second_less_one (pointer_of p).
Definition get_crater_offset : res Z := Ok 64.
Definition msl_edr_offset : res Z := Ok 64.
(** phoenix.py:105-119 [phxao_table_offset] *)
Definition phxao_table_offset p size : res Z := count_from_bottom size (ident p $"ROWS") (ident p $"ROW_BYTES").
(** msl_cmn.py:55-78 [get_offset]; [None] is (False, None) *)
Definition chemin_get_offset (p : asked) : option Z :=
  if str_eqb (object p) $"HISTOGRAM" then Some 300
  else if str_eqb (object p) $"CHMN_HSK_HEADER_TABLE" then Some 0
  else None.
(** themis.py:54-67 [get_qube_offset]; comparing with anything but a number is a TypeError *)
Definition get_qube_offset p size : res (option Z) :=
  match label p $"FILE_RECORDS" with
  | PInt n => if size <=? n then do z <- last_less_one (label p $"^QUBE"); Ok (Some z) else Ok None
  | _ => Err TypeError
  end.
(** cassini.py:336-352 [coiss_1006_offset] *)
Definition coiss_1006_offset p : res (option Z) :=
  if str_eqb (object p) $"IMAGE_HEADER" then Ok None
  else
    do z <- second_less_one (pointer_of p);
    match ident p $"RECORD_BYTES" with
    | PInt r => Ok (Some (r * (z - 1)))
    | _ => Err TypeError
    end.
(** Simplification: a RECORD_BYTES that is text makes a text, which is refused by what uses it:
    a TypeError here *)

(** re.split(r",|[(|)]", text): the text between commas, parentheses and bars *)
Definition at_mark (c : ascii) : bool := existsb (Ascii.eqb c) $",(|)".
Fixpoint split_marks (s : str) : list str :=
  match s with
  | [] => [[]]
  | c :: s => match split_marks s with
              | w :: ws => if at_mark c then [] :: w :: ws else (c :: w) :: ws
              | [] => []
              end
  end.
(** re.split(...)[i] of the pointer data.metaget("^" + name); of anything but text a TypeError *)
Definition marked (p : asked) (i : nat) : res str :=
  match pointer_of p with
  | PStr s => match nth_error (split_marks s) i with Some w => Ok w | None => Err IndexError end
  | _ => Err TypeError
  end.
(** clementine.py:8-15 [get_offset], 18-25 [get_fn].  Simplification: a RECORD_BYTES that is text
    makes a text, refused by what uses it: a TypeError here *)
Definition clementine_get_offset (p : asked) : res Z :=
  do w <- marked p 2; do row <- PvlLiteral.py_int 10 w;
  match label p $"RECORD_BYTES" with PInt r => Ok ((row - 1) * r) | _ => Err TypeError end.
Definition clementine_get_fn (p : asked) : res str := marked p 1.

(** formats.m.f(...) of check_special_offset *)
Definition offset_handler (m f : str) p size : res (option Z) :=
  let is a c := str_eqb m a && str_eqb f c in
  let some (r : res Z) := do z <- r; Ok (Some z) in
  if is $"msl_cmn" $"get_offset" then Ok (chemin_get_offset p)
  else if is $"clementine" $"get_offset" then some (clementine_get_offset p)
  else if is $"themis" $"get_qube_offset" then get_qube_offset p size
  else if is $"cassini" $"get_offset" then some (cassini_get_offset p size)
  else if is $"cassini" $"coiss_1006_offset" then coiss_1006_offset p
  else if is $"lro" $"get_crater_offset" then some get_crater_offset
  else if is $"phoenix" $"phxao_table_offset" then some (phxao_table_offset p size)
  else if is $"phoenix" $"wcl_rdr_offset" then some (wcl_rdr_offset p)
  else if is $"msl_rems" $"edr_offset" then some (rems_edr_offset p)
  else if is $"msl_edr" $"edr_offset" then some msl_edr_offset
  else Err AttributeError.
(** specialize(data_start_byte, check_special_offset): the query start_byte *)
Definition start_byte p b target size : res Z :=
  let generic_start := data_start_byte (ident p $"RECORD_BYTES") b target size in
  do a <- check Offset p;
  match a with
  | Always m f | Maybe m f => do o <- offset_handler m f p size; match o with Some z => Ok z | None => generic_start end
  | _ => generic_start
  end.
(** the queries start_byte and table_props of a table or a header, then the text read
    (loaders/table.py:250-273, see Model/Position); a table_props of None is a TypeError *)
Definition table_text p b target (content : list ascii) : res (list ascii) :=
  let size := Z.of_nat (List.length content) in
  do s <- start_byte p b target size;
  do q <- table_props p b target size s;
  match q with Some q => ascii_text content q | None => Err TypeError end.
