(** Model of HISTOGRAM objects: pdr/loaders/queries.py:798-812 ([get_histogram_fields]),
    613-640 ([read_table_structure] for a name with HISTOGRAM in it), 538-557, 571-610
    ([_fill_empty_byte_rows], [parse_table_structure]); pdr/pd_utils.py:157-218 (a type
    without offsets is packed); pdr/loaders/table.py:72-136.
    Label numbers are integers (anything else is a TypeError in the model). *)
From Verif.Base Require Import Py Val Numpy.
From Verif.Model Require Import Files Types Scaling Pds4Types Table Array TableValues.
Open Scope Z_scope.

(** queries.py:798-812 *)
Definition histogram_fields (block : multidict) : res (list field) :=
  if match md_get block $"INTERCHANGE_FORMAT" with Some (PStr s) => str_eqb s $"ASCII" | _ => false end then Err NotImplementedError_
  else match md_get block $"ITEMS" with
       | None | Some PNone => Ok [to_dict block]
       | Some (PInt n) => Ok (append_repeated_object (RObj (to_dict block)) [] n)
       | Some _ => Err TypeError
       end.
(** queries.py:626-640: an object without a NAME has that of the object; several columns
    named RESERVED need START_BYTE (pd_utils.py:52-53).  Names are texts here. *)
Definition named_fields (block : multidict) (name : str) (fields : list field) : res (list field) :=
  match md_get block $"NAME" with
  | None => Ok (reindexed (map (fun f => dict_set f $"NAME" (PStr name)) fields))
  | Some (PStr s) => if str_eqb s $"RESERVED" && (1 <? Z.of_nat (length fields)) then Err KeyError else Ok (reindexed fields)
  | Some _ => Err TypeError
  end.
(** queries.py:586-596 and 538-557 *)
Definition histogram_row (f : field) : res frow :=
  do name <- match dict_get f $"NAME" with Some (PStr s) => Ok s | _ => Err TypeError end;
  do bytes <- opt_int f $"BYTES"; do items <- opt_int f $"ITEMS"; do ib <- opt_int f $"ITEM_BYTES";
  do bytes <- match bytes, items, ib with Some b, _, _ => Ok b | None, Some n, Some w => Ok (n * w) | _, _, _ => Err ValueError end;
  Ok (mkRow name None 0 bytes items ib None 1 None (dict_get f $"DATA_TYPE") (dict_get f $"SCALING_FACTOR") (dict_get f $"OFFSET")).
(** queries.py:571-610: with START_BYTE, [compute_offsets] asks for BLOCK_NAME, which is
    not there; DATA_TYPE is asked for in any case *)
Definition histogram_rows (block : multidict) (name : str) : res (list frow) :=
  do fields <- histogram_fields block;
  do fields <- named_fields block name fields;
  do _ <- need block $"DATA_TYPE";
  do rows <- rmap histogram_row fields;
  if md_has block $"START_BYTE" then Err KeyError else Ok rows.
(** pd_utils.py:207-218: without offsets the fields follow one another *)
Fixpoint packed (off : Z) (l : list (frow * tmeaning)) : list orow :=
  match l with
  | [] => []
  | (r, t) :: l' => mkO r off 1 :: packed (off + Z.of_nat (t_size t)) l'
  end.
(** table.py:72-110; what looks like text (NotImplementedError here) is not modelled *)
Definition read_histogram (from_vax32 : N -> num) (cp500 : ascii -> ascii) (in_memory : bool) (file : list ascii)
    (block : multidict) (name : str) (start : nat) : res (list framecol) :=
  do rows <- histogram_rows block name;
  if probably_ascii block (map (fun r => mkO r 0 1) rows) name then Err NotImplementedError_
  else
    do types <- rmap cell_type rows;
    let t := packed 0 (combine rows types) in
    do table <- interpret_as_binary from_vax32 cp500 in_memory file block start (t, None);
    rmap (scale_column t None) (drop_placeholders table).
