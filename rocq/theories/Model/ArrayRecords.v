(** Model of binary PDS3 ARRAY objects with subobjects (COLLECTIONs, ELEMENTs, ARRAYs):
    pdr/loaders/queries.py:641-663 ([parse_array_structure]), 613-640 ([read_table_structure]);
    pdr/pd_utils.py:157-239 ([insert_sample_types_into_df], [fmtdef_to_dtype],
    [construct_nested_array_format]); pdr/loaders/table.py:37-51 ([read_array]).
    Special sample types and the text of format files (a parameter, see Model/Table.v) are
    left out; numbers of labels are integers. *)
From Verif.Base Require Import Py Val Numpy.
From Verif.Model Require Import Files Types Scaling Pds4Types Pds4Values Table Array Pds4Frame TableValues.
Open Scope Z_scope.

(** queries.py:657-658: START_BYTE is 1 where it is missing.  It is not used afterwards:
    [compute_offsets] is not called, so that there is no SB_OFFSET *)
Definition array_row (f : field) : res frow :=
  row_of_field (match dict_get f $"START_BYTE" with None | Some PNone => dict_set f $"START_BYTE" (PInt 1) | Some _ => f end).
(** queries.py:628-635; with a NAME in some of the fields only, the others have NaN *)
Definition name_fields (name : str) (fields : list field) : list field :=
  if existsb (fun f => dict_has f $"NAME") fields then reindexed fields
  else reindexed (map (fun f => dict_set f $"NAME" (PStr name)) fields).
(** pd_utils.py:167-169: a key that no field has *)
Definition need_column (k : str) (fields : list field) : res unit :=
  if existsb (fun f => dict_has f k) fields then Ok tt else Err KeyError.
(** pd_utils.py:207-239: a block after a row with AXIS_ITEMS needs SB_OFFSET *)
Definition nested_step (rows : list (frow * option pv)) (b : option str) : res unit :=
  match b with
  | None | Some [] => Ok tt
  | Some b =>
      match find (fun i => match nth_error rows i with Some r => opt_str_eqb (r_block (fst r)) (Some b) | None => false end) (seq 0 (List.length rows)) with
      | None => Ok tt
      | Some O => Err KeyError
      | Some (S i) =>
          match nth_error rows i with
          | Some (_, Some (PInt _)) => Err KeyError
          | Some (_, None) | Some (_, Some PNone) => Ok tt
          | _ => Err TypeError
          end
      end
  end.
Definition nested_arrays (rows : list (frow * option pv)) : res unit :=
  match uniq (map (fun r => r_block (fst r)) (filter (fun r => negb (str_eqb (r_name (fst r)) $"PLACEHOLDER_0")) rows)) with
  | [] => Ok tt
  | _ :: rest => do _ <- rmap (nested_step rows) rest; Ok tt
  end.
(** the fields of one element of the array: names and types, which follow one another *)
Definition parse_records (load : pv -> res (list (str * pv))) (bits : field -> multidict -> res field) (fuel : nat)
    (b : multidict) (name : str) : res (list (str * tmeaning)) :=
  do r <- read_format_block load bits fuel b name;
  let fields := name_fields name (fst r) in
  do rows <- rmap array_row fields;
  do _ <- need_column $"DATA_TYPE" fields; do _ <- need_column $"BYTES" fields;
  do types <- rmap cell_type rows;
  do _ <- nested_arrays (combine rows (map (fun f => dict_get f $"AXIS_ITEMS") fields));
  if has_dup (map r_name rows) then Err ValueError else Ok (combine (map r_name rows) types).
Definition record_size (dt : list (str * tmeaning)) : nat := list_sum (map (fun x => t_size (snd x)) dt).
(** one element: its fields, from its bytes *)
Fixpoint record_of (dt : list (str * tmeaning)) (bs : list ascii) : list (str * cell) :=
  match dt with
  | [] => []
  | (n, t) :: dt' => (n, np_cell t (firstn (t_size t) bs)) :: record_of dt' (skipn (t_size t) bs)
  end.
(** table.py:37-51 for a binary array with a subobject *)
Definition read_record_array (load : pv -> res (list (str * pv))) (bits : field -> multidict -> res field) (fuel : nat)
    (in_memory : bool) (file : list ascii) (b : multidict) (name : str) (start : nat) : res (arr (list (str * cell))) :=
  if negb (is_binary b) then Err NotImplementedError_
  else
    do sub <- check_array_for_subobject b;
    if negb sub then Err NotImplementedError_
    else
      do dt <- parse_records load bits fuel b name;
      do items <- need b $"AXIS_ITEMS";
      do sh <- axis_sizes items;
      do count <- get_array_num_items sh;
      let w := record_size dt in
      do n <- rows_in in_memory file start count w;
      reshape sh (flat_array [] (map (fun k => record_of dt (firstn w (skipn (start + k * w) file))) (seq 0 n))).
