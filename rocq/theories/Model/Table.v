(** Model of table format definitions: pdr/loaders/queries.py:655-790 (placeholders,
    [read_format_block]), 815-845 ([inject_format_files]), 538-560, 575-640
    ([_fill_empty_byte_rows], [parse_table_structure]); pdr/pd_utils.py:39-171
    ([reindex_df_values], [_apply_item_offsets], [compute_offsets]), 207-218
    ([fmtdef_to_dtype]); pdr/loaders/table.py:188-222 (column boundaries).
    Label numbers are integers (anything else is a TypeError in the model). *)
From Verif.Base Require Import Py Val.
From Verif.Model Require Import Files.
Open Scope Z_scope.

(** pds3.py:29 STRUCTUREPAT = ^(?:(?:\w|_)+_)?STRUCTURE$, with its leading ^ escaped;
    Simplification: no final newline *)
Definition is_word (c : ascii) : bool := is_upper c || is_lower c || is_digit c || Ascii.eqb c "_".
Definition is_structure (key : str) : bool :=
  match key with
  | "^"%char :: rest =>
      str_eqb rest $"STRUCTURE" ||
      (endswith $"_STRUCTURE" rest && (10 <? Z.of_nat (List.length rest)) &&
       forallb is_word rest)
  | _ => false
  end.
Definition items_of (v : pv) : res (list (str * pv)) := match v with PMulti kvs | PDict kvs => Ok kvs | _ => Err AttributeError end.

Section Format.
(** the contents of a format file, found and parsed ([load_format_file], read_pvl) *)
Variable load : pv -> res (list (str * pv)).
(** queries.py:815-845 [inject_format_files]; one pass over the items *)
Definition unwrap_table (fmt : list (str * pv)) : res (list (str * pv)) :=
  match fmt with
  | [(k, v)] => if contains $"TABLE" k then items_of v else Ok fmt
  | _ => Ok fmt
  end.
Definition inject_format_files (block : list (str * pv)) : res (list (str * pv)) :=
  let format_fns := filter (fun x => is_structure (fst (snd x))) (combine (seq 0 (List.length block)) block) in
  let fix assemble (fns : list (nat * (str * pv))) (last_ix : nat) : res (list (str * pv)) :=
    match fns with
    | [] => Ok (skipn last_ix block)
    | (ix, (_, format_fn)) :: fns' =>
      do fmt <- load format_fn; do fmt <- unwrap_table fmt;
      do rest <- assemble fns' (S ix);
      Ok (firstn (ix - last_ix) (skipn last_ix block) ++ fmt ++ rest)
    end in
  assemble format_fns 0%nat.
(** queries.py:721-722: until no STRUCTURE is left *)
Fixpoint inject_all (fuel : nat) (block : list (str * pv)) : res (list (str * pv)) :=
  match fuel with
  | O => Err OutOfFuel
  | S fuel => if existsb (fun kv => is_structure (fst kv)) block
              then do b <- inject_format_files block; inject_all fuel b else Ok block
  end.

Definition field := list (str * pv).
(** dict(multidict): the first value of each key *)
Definition to_dict (m : multidict) : field :=
  fold_left (fun d kv => if dict_has d (fst kv) then d else d ++ [kv]) m [].
(** d | other *)
Definition dict_or (d other : field) : field := fold_left (fun d kv => dict_set d (fst kv) (snd kv)) other d.
Definition get_or (m : multidict) (k : str) (dflt : pv) : pv := match md_get m k with Some v => v | None => dflt end.
(** f"{v}" of a name *)
Definition show (v : pv) : str :=
  match v with PStr s => s | PInt z => if z <? 0 then "-"%char :: str_of_N (Z.to_N (- z)) else str_of_N (Z.to_N z) | _ => $"None" end.
(** queries.py:713-717 *)
Definition block_info (block : multidict) : field :=
  [($"BLOCK_NAME", get_or block $"NAME" PNone); ($"BLOCK_REPETITIONS", get_or block $"REPETITIONS" (PInt 1));
   ($"BLOCK_BYTES", get_or block $"BYTES" PNone)].
Definition need (m : multidict) (k : str) : res pv := match md_get m k with Some v => Ok v | None => Err KeyError end.
(** queries.py:667-679 [create_placeholder_field] (AXIS_ITEMS when truthy) *)
Definition create_placeholder_field (info : field) (definition : multidict) : res field :=
  do name <- need definition $"NAME"; do sb <- need definition $"START_BYTE";
  Ok ([($"NAME", PStr ($"PLACEHOLDER_" ++ show name)); ($"DATA_TYPE", PStr $"VOID"); ($"START_BYTE", sb);
       ($"BYTES", PInt 0); ($"BLOCK_REPETITIONS", get_or definition $"REPETITIONS" (PInt 1));
       ($"BLOCK_BYTES", get_or definition $"BYTES" PNone);
       ($"BLOCK_NAME", PStr ($"PLACEHOLDER_" ++ show (get_or info $"BLOCK_NAME" PNone)))] ++
      match md_get definition $"AXIS_ITEMS" with Some (PInt 0) | Some PNone | None => [] | Some v => [($"AXIS_ITEMS", v)] end).
Definition structured_parameters : list str :=
  [$"ARRAY"; $"COLLECTION"; $"COLUMN"; $"CONTAINER"; $"ELEMENT"; $"FIELD"; $"PRIMITIVE_ARRAY"; $"STRUCTURE"].
(** queries.py:255-270 *)
Definition check_array_for_subobject (m : multidict) : res bool :=
  match List.length (filter (md_has m) [$"ARRAY"; $"BIT_ELEMENT"; $"COLLECTION"; $"ELEMENT"]) with
  | O => Ok false | S O => Ok true | _ => Err ValueError end.
(** handlers.py:264-289 [add_bit_column_info] is a parameter for columns that have bit columns *)
Variable bits : field -> multidict -> res field.
Record fstate := mkF { f_fields : list field; f_needs : bool; f_add : bool; f_reps : pv }.
Definition as_multi_ (v : pv) : res multidict := match v with PMulti m => Ok m | _ => Err TypeError end.
(** queries.py:780-788: the object is a dict or the list returned by the recursion *)
Definition append_object (st : fstate) (obj : repeatable field) : res fstate :=
  do fs <- match f_reps st with
           | PNone => Ok (f_fields st ++ match obj with RSeq l => l | RObj o => [o] end)
           | PInt n => Ok (append_repeated_object obj (f_fields st) n)
           | _ => Err TypeError
           end;
  Ok (mkF fs (f_needs st) (f_add st) (f_reps st)).
Definition add_placeholder_if (info : field) (definition : multidict) (st : fstate) : res fstate :=
  if f_add st then
    do p <- create_placeholder_field info definition; Ok (mkF (f_fields st ++ [p]) (f_needs st) (f_add st) (f_reps st))
  else Ok st.
(** queries.py:695-795 [read_format_block]; within_container is never passed.  [format_step]
    is one round of the loop of lines 724-788; [rec] is the recursive call. *)
Definition format_step (rec : multidict -> res (list field * bool)) (info : field) (st : fstate) (kv : str * pv) : res fstate :=
  let '(item_type, v) := kv in
  if negb (str_in item_type structured_parameters) then Ok st
  else
    do item_type <- (if str_eqb item_type $"ARRAY" then
                       do m <- as_multi_ v; do sub <- check_array_for_subobject m;
                       Ok (if sub : bool then item_type else $"PRIMITIVE_ARRAY")
                     else Ok item_type);
    if str_in item_type [$"COLUMN"; $"FIELD"; $"ELEMENT"; $"PRIMITIVE_ARRAY"] then
      do definition <- as_multi_ v;
      do definition <- (if md_has definition $"^STRUCTURE" then inject_format_files definition else Ok definition);
      let obj := dict_or (to_dict definition) info in
      if dict_has obj $"BIT_ELEMENT" then Err NotImplementedError_
      else
        let st := mkF (f_fields st) (f_needs st) (f_add st) (get_or definition $"ITEMS" PNone) in
        do obj <- (if dict_has obj $"BIT_COLUMN" then bits obj definition else Ok obj);
        do st <- add_placeholder_if info definition st;
        append_object st (RObj obj)
    else if str_in item_type [$"CONTAINER"; $"COLLECTION"; $"ARRAY"] then
      do definition <- as_multi_ v;
      do r <- rec definition;
      let '(inner, add_placeholder) := r in
      let st := if str_eqb item_type $"ARRAY" then mkF (f_fields st) true true (f_reps st)
                else mkF (f_fields st) true add_placeholder (get_or definition $"REPETITIONS" PNone) in
      do st <- add_placeholder_if info definition st;
      append_object st (RSeq inner)
    else Err NotImplementedError_.
Fixpoint format_loop (rec : multidict -> res (list field * bool)) (info : field) (items : list (str * pv)) (st : fstate) : res fstate :=
  match items with [] => Ok st | kv :: items' => do st <- format_step rec info st kv; format_loop rec info items' st end.
Fixpoint read_format_block (fuel : nat) (block : multidict) (object_name : str) : res (list field * bool) :=
  match fuel with
  | O => Err OutOfFuel
  | S fuel =>
    do format_block <- inject_all fuel block;
    do st <- format_loop (fun d => read_format_block fuel d object_name) (block_info block) format_block (mkF [] false false PNone);
    do fields <- (if str_eqb object_name $"CONTAINER" then
                    match md_get block $"REPETITIONS" with
                    | Some (PInt n) => Ok (List.concat (repeat (f_fields st) (Z.to_nat n)))
                    | Some PNone | None => Ok (f_fields st)
                    | Some _ => Err TypeError
                    end
                  else Ok (f_fields st));
    Ok (fields, f_needs st)
  end.
End Format.

(** ** pd_utils.py:39-57 [reindex_df_values]; the second component is the text of
    START_BYTE, used for RESERVED columns.  Groups are renamed one after the other,
    each from its own rows, so the order of the groups does not matter. *)
Definition count_name (names : list str) (n : str) : nat := List.length (filter (str_eqb n) names).
Definition group_base (rows : list (str * str)) (n : str) : str :=
  if str_eqb n $"RESERVED" then
    match find (fun r => str_eqb (fst r) n) rows with Some r => $"RESERVED_" ++ snd r | None => n end
  else n.
Fixpoint rename_from (all : list (str * str)) (seen : list str) (rows : list (str * str)) : list str :=
  match rows with
  | [] => []
  | (n, _) :: rows' =>
    (if (count_name (map fst all) n =? 1)%nat then n
     else group_base all n ++ $"_" ++ str_of_nat (count_name seen n)) :: rename_from all (n :: seen) rows'
  end.
Definition reindex_names (rows : list (str * str)) : list str := rename_from rows [] rows.

(** ** One row of the format definition *)
Record frow := mkRow { r_name : str; r_block : option str; r_start : Z; r_bytes : Z;
  r_items : option Z; r_item_bytes : option Z; r_item_offset : option Z; r_reps : Z; r_block_bytes : option Z;
  (* DATA_TYPE, SCALING_FACTOR and OFFSET, as the label has them *)
  r_type : option pv; r_scale : option pv; r_shift : option pv }.
Definition opt_int (f : field) (k : str) : res (option Z) :=
  match dict_get f k with None | Some PNone => Ok None | Some (PInt z) => Ok (Some z) | Some _ => Err TypeError end.
(** DataFrame.from_records, with queries.py:538-560 [_fill_empty_byte_rows] *)
Definition row_of_field (f : field) : res frow :=
  do name <- match dict_get f $"NAME" with Some (PStr s) => Ok s | _ => Err TypeError end;
  do blk <- match dict_get f $"BLOCK_NAME" with Some (PStr s) => Ok (Some s) | None | Some PNone => Ok None | _ => Err TypeError end;
  do start <- opt_int f $"START_BYTE"; do start <- match start with Some z => Ok z | None => Err ValueError end;
  do bytes <- opt_int f $"BYTES"; do items <- opt_int f $"ITEMS";
  do ib <- opt_int f $"ITEM_BYTES"; do io <- opt_int f $"ITEM_OFFSET";
  do bytes <- match bytes, items, ib with Some b, _, _ => Ok b | None, Some n, Some w => Ok (n * w) | _, _, _ => Err ValueError end;
  do reps <- opt_int f $"BLOCK_REPETITIONS"; do bb <- opt_int f $"BLOCK_BYTES";
  Ok (mkRow name blk start bytes items ib io (match reps with Some z => z | None => 1 end) bb
        (dict_get f $"DATA_TYPE") (dict_get f $"SCALING_FACTOR") (dict_get f $"OFFSET")).

(** ** pd_utils.py:79-171 [compute_offsets] *)
(** a row with its SB_OFFSET and its current BLOCK_REPETITIONS *)
Record orow := mkO { o_row : frow; o_off : Z; o_reps : Z }.
Definition block_of (o : orow) : option str := r_block (o_row o).
Definition opt_str_eqb (a b : option str) : bool :=
  match a, b with Some x, Some y => str_eqb x y | None, None => true | _, _ => false end.
Fixpoint uniq (l : list (option str)) : list (option str) :=
  match l with [] => [] | x :: l' => x :: filter (fun y => negb (opt_str_eqb x y)) (uniq l') end.
Definition show_opt (b : option str) : str := match b with Some s => s | None => $"None" end.
(** more_itertools.divide(n, l): the part numbers of the elements *)
Definition divide_numbers (n len : nat) : list nat :=
  let q := Nat.div len n in let r := Nat.modulo len n in
  List.concat (map (fun i => repeat i (if (i <? r)%nat then S q else q)) (seq 0 n)).
(** add the listed amounts to the offsets of the rows of a block, in order *)
Fixpoint add_offsets (blk : str) (amounts : list Z) (rows : list orow) : list orow :=
  match rows with
  | [] => []
  | o :: rows' =>
    if opt_str_eqb (block_of o) (Some blk) then
      match amounts with
      | a :: amounts' => mkO (o_row o) (o_off o + a) (o_reps o) :: add_offsets blk amounts' rows'
      | [] => o :: add_offsets blk [] rows'
      end
    else o :: add_offsets blk amounts rows'
  end.
Definition in_block (blk : str) (o : orow) : bool := opt_str_eqb (block_of o) (Some blk).
(** one round of the loop of lines 100-127 *)
Definition block_step (first : option str) (prefix : option Z) (rows : list orow) (blk : option str) : res (list orow) :=
  match blk with
  | None => Err TypeError
  | Some b =>
    if str_eqb b $"PLACEHOLDER_None" || str_eqb b ($"PLACEHOLDER_" ++ show_opt first) then Ok rows
    else
      let here := filter (in_block b) rows in
      let placeholder := contains $"PLACEHOLDER" b in
      do prior <- (if placeholder then
                     match filter (fun o => str_eqb (r_name (o_row o)) b) rows with [o] => Ok o | _ => Err ValueError end
                   else
                     (* the row before the first row of the block *)
                     match find (fun i => match nth_error rows i with Some o => in_block b o | None => false end)
                             (seq 0 (List.length rows)) with
                     | Some (S i) => match nth_error rows i with Some o => Ok o | None => Err KeyError end
                     | _ => Err KeyError
                     end);
      let shift := o_off prior + r_bytes (o_row prior) - match prefix with Some p => p | None => 0 end in
      let rows := map (fun o => if in_block b o then mkO (o_row o) (o_off o + shift) (o_reps o) else o) rows in
      do count <- match here with o :: _ => Ok (o_reps o) | [] => Err IndexError end;
      let reps := o_reps prior in
      let rows := if (1 <? reps) && placeholder then
                    map (fun o => if in_block b o then mkO (o_row o) (o_off o) (o_reps o * reps) else o) rows else rows in
      let count := if (1 <? reps) && negb placeholder then count * reps else count in
      if count =? 1 then Ok rows
      else if count <? 1 then Err ValueError
      else
        match here with
        | [] => Err IndexError
        | o :: _ =>
          match r_block_bytes (o_row o) with
          | None => Err ValueError
          | Some size =>
            Ok (add_offsets b (map (fun i => Z.of_nat i * size) (divide_numbers (Z.to_nat count) (List.length here))) rows)
          end
        end
  end.
Fixpoint blocks_loop (first : option str) (prefix : option Z) (rows : list orow) (names : list (option str)) : res (list orow) :=
  match names with
  | [] => Ok rows
  | b :: names' => do rows <- block_step first prefix rows b; blocks_loop first prefix rows names'
  end.
(** pd_utils.py:60-76 [_apply_item_offsets] *)
Definition item_size (r : frow) : res (option Z) :=
  match r_item_offset r, r_item_bytes r with
  | Some io, Some ib => if io <? ib then Err ValueError else Ok (Some io)
  | Some io, None => Ok (Some io)
  | None, ib => Ok ib
  end.
(** value_counts().sort_index() *)
Fixpoint count_insert (x : Z) (l : list (Z * nat)) : list (Z * nat) :=
  match l with
  | [] => [(x, 1%nat)]
  | (y, n) :: l' => if x =? y then (y, S n) :: l' else if x <? y then (x, 1%nat) :: l else (y, n) :: count_insert x l'
  end.
Definition value_counts (l : list Z) : list (Z * nat) := fold_left (fun acc x => count_insert x acc) l [].
(** lines 132-140: [sizes] are the item sizes of the rows with items, in row order *)
Fixpoint group_offsets (groups : list (Z * nat)) (sizes : list Z) : list Z :=
  match groups with
  | [] => []
  | (off, n) :: groups' =>
    map (fun i => Z.of_nat i * hd 0 sizes + off) (seq 0 n) ++ group_offsets groups' (skipn n sizes)
  end.
Fixpoint assign_offsets (rows : list (orow * option Z)) (offs : list Z) : list orow :=
  match rows with
  | [] => []
  | (o, None) :: rows' => o :: assign_offsets rows' offs
  | (o, Some _) :: rows' =>
    match offs with
    | x :: offs' => mkO (o_row o) x (o_reps o) :: assign_offsets rows' offs'
    | [] => o :: assign_offsets rows' []
    end
  end.
Definition sized (rows : list orow) : res (list (orow * option Z)) :=
  rmap (fun o => do s <- item_size (o_row o); Ok (o, s)) rows.
Definition item_offsets (rows : list orow) : res (list orow) :=
  if existsb (fun o => match r_item_bytes (o_row o) with Some _ => true | None => false end) rows then
    do ss <- sized rows;
    let having := filter (fun x => match snd x with Some _ => true | None => false end) ss in
    let sizes := map (fun x => match snd x with Some s => s | None => 0 end) having in
    Ok (assign_offsets ss (group_offsets (value_counts (map (fun x => o_off (fst x)) having)) sizes))
  else Ok rows.
(** Row measurements of the label block, inserted by parse_table_structure *)
Record rowinfo := mkI { i_prefix : option Z; i_suffix : option Z; i_bytes : option Z }.
Definition opt0 (o : option Z) : Z := match o with Some z => z | None => 0 end.
(** (name, offset, width) of the final placeholder, if any (lines 141-170) *)
Definition tail_row (info : rowinfo) (rows : list orow) : res (option (Z * Z)) :=
  match rev rows with
  | [] => Err IndexError
  | o :: _ =>
    let end_byte := o_off o + r_bytes (o_row o) in
    let pad := (match i_bytes info with Some b => b - end_byte | None => 0 end) + opt0 (i_suffix info) in
    Ok (if 0 <? pad then Some (end_byte, pad) else None)
  end.
Definition compute_offsets (info : rowinfo) (rows : list frow) : res (list orow * option (Z * Z)) :=
  let rows := map (fun r => mkO r (r_start r - 1 + opt0 (i_prefix info)) (r_reps r)) rows in
  match uniq (map block_of (filter (fun o => negb (str_eqb (r_name (o_row o)) $"PLACEHOLDER_0")) rows)) with
  | [] => do rows <- item_offsets rows; do tail <- tail_row info rows; Ok (rows, tail)
  | first :: rest =>
    do rows <- blocks_loop first (i_prefix info) rows rest;
    do rows <- item_offsets rows;
    do tail <- tail_row info rows;
    Ok (rows, tail)
  end.
(** table.py:200-207 / sample_types: the width of a cell *)
Definition cell_width (r : frow) : Z := match r_item_bytes r with Some w => w | None => r_bytes r end.
(** table.py:200-207 [colspecs] of ASCII tables, without the final placeholder *)
Definition colspecs (rows : list orow) : list (Z * Z) := map (fun o => (o_off o, o_off o + cell_width (o_row o))) rows.
(** pd_utils.py:207-218: numpy's itemsize of the dtype made from names, formats and
    offsets is the largest end of a field *)
Definition dtype_itemsize (t : list orow * option (Z * Z)) : Z :=
  fold_left Z.max (map (fun o => o_off o + cell_width (o_row o)) (fst t) ++
                   match snd t with Some (off, n) => [off + n] | None => [] end) 0.
(** queries.py:575-640 [parse_table_structure] on a label block, up to the offsets *)
Definition row_info (block : multidict) : res rowinfo :=
  do p <- opt_int block $"ROW_PREFIX_BYTES"; do s <- opt_int block $"ROW_SUFFIX_BYTES"; do b <- opt_int block $"ROW_BYTES";
  Ok (mkI p s b).
Definition start_text (f : field) : str := match dict_get f $"START_BYTE" with Some v => show v | None => $"nan" end.
Definition name_of (f : field) : str := match dict_get f $"NAME" with Some (PStr s) => s | _ => [] end.
Definition reindexed (fields : list field) : list field :=
  map (fun nf => dict_set (snd nf) $"NAME" (PStr (fst nf)))
    (combine (reindex_names (map (fun f => (name_of f, start_text f)) fields)) fields).
Definition parse_table_structure (load : pv -> res (list (str * pv))) (bits : field -> multidict -> res field)
    (fuel : nat) (block : multidict) (name : str) : res (list orow * option (Z * Z)) :=
  do r <- read_format_block load bits fuel block name;
  do info <- row_info block;
  do rows <- rmap row_of_field (reindexed (fst r));
  compute_offsets info rows.
(** np_from_buffered_io with that dtype: row [k] of the file is [itemsize] bytes from
    [start + k * itemsize], and a field is its bytes of the row *)
Definition cell_bytes (file : list ascii) (start itemsize : Z) (k : nat) (off width : Z) : list ascii :=
  firstn (Z.to_nat width) (skipn (Z.to_nat (start + Z.of_nat k * itemsize + off)) file).
(** table.py:113-127 [_interpret_as_binary] up to the conversion of the cells' bytes to
    values, with np_utils.py:72-93 [np_from_buffered_io]: the bytes of the cells of the
    rows read, [count] = ROWS or 1.  [in_memory]: the file is compressed (read into
    memory whole) rather than an ordinary one.  The padding field is dropped
    (_drop_placeholders, table.py:66-69). *)
Definition read_binary (in_memory : bool) (file : list ascii) (start count : nat) (t : list orow * option (Z * Z)) : res (list (list (list ascii))) :=
  let w := Z.to_nat (dtype_itemsize t) in
  let rest := skipn start file in
  do n <- (if in_memory then
             let l := List.length (firstn (count * w) rest) in
             if (l mod w =? 0)%nat then Ok (l / w)%nat else Err ValueError
           else Ok (Nat.min count (List.length rest / w)));
  Ok (map (fun k => map (fun o => cell_bytes file (Z.of_nat start) (dtype_itemsize t) k (o_off o) (cell_width (o_row o))) (fst t)) (seq 0 n)).
