(** Model of PDS4 products: from the tree of the label to the arrays and tables.
    pdr/pds4_tools/reader/core.py:216-311 [read_structures], general_objects.py:552-654,
    array_objects.py:359-470, table_objects.py:498-600, 659-696, 1030-1087, 1298-1340,
    1615-1890, header_objects.py:190-226, read_tables.py:470-475, 840-960,
    pdr/pdr.py:335-347, 714-757.
    ElementTree's parser is not modelled (see Model/Xml).  Left out: what is done for structures
    of FITS files (Model/Fits), the special cases of check_special_pds4_cases (Model/Checkers),
    the contents of headers, Uniformly_Sampled fields (an error here), display settings and
    spectral characteristics, warnings. *)
From Coq Require Import QArith.
From Verif.Base Require Import Py Val Numpy.
From Verif.Model Require Import Types Scaling Pds4Types Pds4Values Xml Pds4Tables Pds4Frame.
Open Scope nat_scope.

Definition xtag (e : xml) : str := match e with Elem t _ _ _ _ => t end.
Definition xtext (e : xml) : option str := match e with Elem _ _ t _ _ => t end.
Definition xchildren (e : xml) : list xml := match e with Elem _ _ _ _ c => c end.

(** ** Meta data *)
(** utils/helpers.py:15-38; "nan" and "inf" stay text here *)
Definition cast_int_float_string (s : str) : pv :=
  match int_bytes 10 s with
  | Ok z => PInt z
  | Err _ => match float_bytes s with Ok (Fin q) => PFloat q | _ => PStr s end
  end.
(** general_objects.py:526 *)
Definition DEFAULT_CAST_IGNORE : list str := [$"local_identifier"; $"name"; $"title"; $"description"].
(** utils/helpers.py:145-269 [xml_to_dict] with skip_attributes and cast_values; the text of an
    element that has children is under _text (unless it is 0) *)
Fixpoint to_dict (mods : list (str * str)) (e : xml) : str * pv :=
  match e with
  | Elem tag attrib text tail children =>
      let v := match attrib with [] => PNone | _ => PDict [] end in
      let v := match children with
               | [] => v
               | _ => PDict (map single_or_list (fold_left append_value (map (to_dict mods) children) []))
               end in
      let name := modify_tag mods tag in
      let v := match text with
               | None => v
               | Some t => if is_blank t then v
                           else let t := if str_in name DEFAULT_CAST_IGNORE then PStr t else cast_int_float_string t in
                                match children, v with
                                | _ :: _, PDict d => PDict (dict_set d $"_text" t)
                                | _, _ => t
                                end
               end in
      (name, v)
  end.
Definition meta := list (str * pv).
(** general_objects.py:552-580 *)
Definition load_keys (mods : list (str * str)) (e : xml) : res meta :=
  match snd (to_dict mods e) with PDict d => Ok d | _ => Err AttributeError end.
(** general_objects.py:582-625 [_check_keys_exist] *)
Definition has_key (v : pv) (k : str) : res bool :=
  match v with
  | PDict d => Ok (dict_has d k)
  | PStr s => Ok (contains k s)
  | PTuple l => Ok (existsb (fun w => match w with PStr s => str_eqb s k | _ => false end) l)
  | _ => Err TypeError
  end.
Fixpoint check_keys (v : pv) (ks : list str) : res unit :=
  match ks with
  | [] => Ok tt
  | k :: ks => do b <- has_key v k; if b : bool then check_keys v ks else Err StandardsError
  end.
(** self[k], self.get(k), as a whole number, as text *)
Definition get (m : meta) (k : str) : res pv := match dict_get m k with Some v => Ok v | None => Err KeyError end.
Definition mapping (v : pv) : res meta := match v with PDict d => Ok d | _ => Err TypeError end.
Definition whole (v : pv) : res Z := match v with PInt z => Ok z | _ => Err TypeError end.
(** numbers of elements, records and bytes; negative ones are left out (an error here) *)
Definition natural (v : pv) : res nat := do z <- whole v; if (z <? 0)%Z then Err ValueError else Ok (Z.to_nat z).
Definition text (v : pv) : res str := match v with PStr s => Ok s | _ => Err AttributeError end.
Definition get_nat (m : meta) (k : str) : res nat := do v <- get m k; natural v.
Definition get_int (m : meta) (k : str) : res Z := do v <- get m k; whole v.
Definition get_text (m : meta) (k : str) : res str := do v <- get m k; text v.
(** the meta data of special constants; values that are no text or number are left out *)
Definition constant (kv : str * pv) : list (str * special) :=
  match snd kv with PInt z => [(fst kv, CI z)] | PFloat q => [(fst kv, CF q)] | PStr s => [(fst kv, CStr s)] | _ => [] end.
Definition constants (m : meta) : option (list (str * special)) :=
  match dict_get m $"Special_Constants" with Some (PDict d) => Some (flat_map constant d) | _ => None end.

(** ** Arrays *)
(** array_objects.py:445-470 [get_axis_arrays]; sequence numbers that are no whole numbers are
    left out (an error here) *)
Definition axis_arrays (m : meta) : res (list pv) :=
  do v <- get m $"Axis_Array"; Ok (match v with PTuple l => l | v => [v] end).
Definition axis_value (k : str) (v : pv) : res Z := do d <- mapping v; get_int d k.
(** array_objects.py:359-410 [from_label] *)
Definition array_from_label (e : xml) : res meta :=
  do m <- load_keys [] e;
  do _ <- check_keys (PDict m) [$"offset"; $"axes"; $"Axis_Array"; $"Element_Array"];
  do axes <- axis_arrays m;
  do _ <- rmap (axis_value $"sequence_number") axes;
  do _ <- (match axes with
           | [_] => do a <- get m $"Axis_Array"; check_keys a [$"axis_name"; $"elements"; $"sequence_number"]
           | _ => do _ <- rmap (fun v => check_keys v [$"axis_name"; $"elements"; $"sequence_number"]) axes; Ok tt
           end);
  do el <- get m $"Element_Array";
  do _ <- check_keys el [$"data_type"];
  Ok m.
(** what is read from the meta data (read_arrays.py:46-60, 176-216) *)
Definition axis_of (v : pv) : res (Z * nat) :=
  do d <- mapping v; do s <- get_int d $"sequence_number"; do n <- get_nat d $"elements"; Ok (s, n).
Definition bit_mask (m : meta) : option str :=
  match dict_get m $"Object_Statistics" with
  | Some (PDict d) => match dict_get d $"bit_mask" with Some (PStr s) => Some s | Some (PInt z) => Some (if (z <? 0)%Z then "-"%char :: str_of_N (Z.to_N (- z)) else str_of_N (Z.to_N z)) | _ => None end
  | _ => None
  end.
Definition array_meta_of (m : meta) : res array_meta :=
  do offset <- get_nat m $"offset";
  do axes <- axis_arrays m;
  do axes <- rmap axis_of axes;
  do el <- get m $"Element_Array"; do el <- mapping el;
  do ty <- get_text el $"data_type";
  Ok (mkArray offset axes ty (bit_mask m) (constants m)).

(** ** Tables *)
(** table_objects.py:523-525, 673-675 *)
Definition record_tag (e : xml) : res str :=
  match filter (contains $"Record_") (map xtag (xchildren e)) with t :: _ => Ok t | [] => Err IndexError end.
Definition table_type (record : str) : str := last (split_on "_"%char record) [].
Definition is_delimited (ty : str) : bool := contains $"delimited" (lower ty).
Definition is_fixed_width (ty : str) : bool := contains $"character" (lower ty) || contains $"binary" (lower ty).
(** table_objects.py:498-558 [from_label] *)
Definition table_from_label (e : xml) : res meta :=
  do m <- load_keys [] e;
  do r <- record_tag e;
  do rec <- get m r;
  if is_delimited (table_type r) then
    do _ <- check_keys (PDict m) [$"offset"; $"records"; $"record_delimiter"; $"field_delimiter"; r];
    do _ <- check_keys rec [$"fields"; $"groups"]; Ok m
  else
    do _ <- check_keys (PDict m) [$"offset"; $"records"; r];
    do _ <- check_keys rec [$"fields"; $"groups"; $"record_length"]; Ok m.
(** fields and groups as the label has them *)
Inductive lfield := LField (name : str) (location len : Z) (about : fmeta) | LGroup (name : option str) (repetitions : nat) (location len : Z) (inner : list lfield).
(** table_objects.py:1631-1776; locations and lengths are not used in delimited tables *)
Definition field_from_label (ty : str) (e : xml) : res lfield :=
  do m <- load_keys [($"field_", [])] e;
  do _ <- check_keys (PDict m) [$"name"];
  do name <- get_text m $"name";
  if str_eqb ty $"Delimited" then
    do _ <- check_keys (PDict m) [$"data_type"]; do t <- get_text m $"data_type";
    Ok (LField name 0 0 (mkM t (constants m)))
  else if str_eqb ty $"Character" || str_eqb ty $"Binary" then
    do _ <- check_keys (PDict m) [$"location"; $"length"; $"data_type"];
    do l <- get_int m $"location"; do n <- get_int m $"length"; do t <- get_text m $"data_type";
    Ok (LField name l n (mkM t (constants m)))
  else Err ValueError.
(** 1854-1890 *)
Definition group_from_label (e : xml) (inner : list lfield) : res lfield :=
  do m <- load_keys [($"group_", [])] e;
  do _ <- check_keys (PDict m) [$"repetitions"; $"fields"; $"groups"];
  do _ <- (if contains $"Delimited" (xtag e) then Ok tt else check_keys (PDict m) [$"location"; $"length"]);
  do r <- get_nat m $"repetitions";
  let name := match dict_get m $"name" with Some (PStr s) => Some s | _ => None end in
  if contains $"Delimited" (xtag e) then Ok (LGroup name r 0 0 inner)
  else do l <- get_int m $"location"; do n <- get_int m $"length"; Ok (LGroup name r l n inner).
(** 1030-1087 [_add_fields_and_groups]; errors of a group are raised before those of its fields *)
Fixpoint label_items (ty : str) (e : xml) : res (list lfield) :=
  match e with
  | Elem _ _ _ _ cs =>
      (fix go (cs : list xml) : res (list lfield) :=
         match cs with
         | [] => Ok []
         | c :: cs =>
             if str_eqb (xtag c) ($"Field_" ++ ty) then do f <- field_from_label ty c; do r <- go cs; Ok (f :: r)
             else if str_eqb (xtag c) ($"Group_Field_" ++ ty) then
               do _ <- group_from_label c []; do inner <- label_items ty c; do g <- group_from_label c inner; do r <- go cs; Ok (g :: r)
             else go cs
         end) cs
  end.
Fixpoint item_of (i : lfield) : item := match i with LField _ l n _ => Fld l n | LGroup _ r l n cs => Grp r l n (map item_of cs) end.
Fixpoint names_in (i : lfield) : list (option str) := match i with LField s _ _ _ => [Some s] | LGroup o _ _ _ cs => o :: flat_map names_in cs end.
Fixpoint abouts (i : lfield) : list fmeta := match i with LField _ _ _ m => [m] | LGroup _ _ _ _ cs => flat_map abouts cs end.
(** int(record_xml.findtext(k)), 1320-1321; the first child *)
Definition count_text (record : xml) (k : str) : res Z :=
  match find (fun c => str_eqb (xtag c) k) (xchildren record) with
  | Some c => match xtext c with Some t => int_bytes 10 t | None => Err TypeError end
  | None => Err TypeError
  end.
(** read_tables.py:470-475, 856-859; delimiters that are not known are left out (an error here) *)
Definition field_delimiter (s : str) : res ascii :=
  let s := lower s in
  if str_eqb s $"comma" then Ok ","%char else if str_eqb s $"horizontal tab" then Ok "009"%char
  else if str_eqb s $"semicolon" then Ok ";"%char else if str_eqb s $"vertical bar" then Ok "|"%char else Err ValueError.
Definition record_delimiter (s : str) : res str :=
  let s := lower s in
  if str_eqb s $"line-feed" then Ok [NL] else if str_eqb s $"carriage-return line-feed" then Ok [CR; NL] else Err ValueError.
(** self.get(k) of a number that may be missing *)
Definition maybe_int (m : meta) (k : str) : res (option Z) :=
  match dict_get m k with None | Some PNone => Ok None | Some v => do z <- whole v; Ok (Some z) end.
(** read_tables.py:30-77, 840-960 and pdr.py:750-756 *)
Definition table_value (junk : nat -> nat -> Z) (e : xml) (m : meta) (file : str) : res (list (str * list dfvalue)) :=
  do r <- record_tag e;
  let ty := table_type r in
  do n <- get_nat m $"records"; do offset <- get_nat m $"offset";
  do rec <- get m r; do rec <- mapping rec;
  match find (fun c => str_eqb (xtag c) $"Uniformly_Sampled") (xchildren e), find (fun c => str_eqb (xtag c) r) (xchildren e) with
  | Some _, _ => Err NotImplementedError_
  | None, None => Err KeyError
  | None, Some record =>
      if is_fixed_width ty then
        do len <- get_int rec $"record_length";
        do fs <- label_items ty record;
        do _ <- count_text record $"fields"; do _ <- count_text record $"groups";
        do k <- (if str_eqb (xtag e) $"Table_Character" then Ok Character else if str_eqb (xtag e) $"Table_Binary" then Ok Binary else Err TypeError);
        fixed_df k (map item_of fs) (flat_map names_in fs) (flat_map abouts fs) len n offset file
      else if is_delimited ty then
        do o <- maybe_int m $"object_length"; do l <- maybe_int rec $"maximum_record_length";
        do fs <- label_items ty record;
        do _ <- count_text record $"fields"; do _ <- count_text record $"groups";
        do rd <- get_text m $"record_delimiter"; do rd <- record_delimiter rd;
        do fd <- get_text m $"field_delimiter"; do fd <- field_delimiter fd;
        (* 930-944: by the name of the structure, then by that of the record *)
        if str_eqb (xtag e) $"Table_Character" || str_eqb (xtag e) $"Table_Binary" then Err NotImplementedError_
        else delimited_df (map item_of fs) (flat_map names_in fs) (flat_map abouts fs) fd rd n o l junk offset file
      else Err TypeError
  end.

(** ** Products *)
(** utils/constants.py:19-27 *)
Definition PDS4_DATA_FILE_AREAS : list str :=
  [$"File_Area_Observational"; $"File_Area_Observational_Supplemental"; $"File_Area_Ancillary"; $"File_Area_Browse"; $"File_Area_Inventory"].
Definition PDS4_TABLE_TYPES : list str := [$"Table_Character"; $"Table_Binary"; $"Table_Delimited"; $"Inventory"].
Inductive skind := SHeader | SArray | STable.
Record struct4 := mkS4 { q_kind : skind; q_label : xml; q_meta : meta; q_file : str }.
(** ElementTree's find(".//tag"): the first element below, in the order of the label *)
Fixpoint find_below (tag : str) (e : xml) : option xml :=
  match e with
  | Elem _ _ _ _ cs =>
      (fix go (cs : list xml) : option xml :=
         match cs with
         | [] => None
         | c :: cs => if str_eqb (xtag c) tag then Some c else match find_below tag c with Some r => Some r | None => go cs end
         end) cs
  end.
(** os.path.join(os.path.dirname(label), name) *)
Definition path_join (dir name : str) : str :=
  match name with
  | "/"%char :: _ => name
  | _ => match rev dir with [] => name | "/"%char :: _ => dir ++ name | _ => dir ++ "/"%char :: name end
  end.
(** core.py:263-275 *)
Definition kind_of (tag : str) : option skind :=
  if contains $"Header" tag then Some SHeader else if contains $"Array" tag then Some SArray
  else if str_in tag PDS4_TABLE_TYPES then Some STable else None.
(** header_objects.py:190-226, and the above *)
Definition from_label (k : skind) (e : xml) : res meta :=
  match k with
  | SHeader => do m <- load_keys [] e; do _ <- check_keys (PDict m) [$"object_length"; $"offset"; $"parsing_standard_id"]; Ok m
  | SArray => array_from_label e
  | STable => table_from_label e
  end.
Fixpoint area_structures (file : str) (cs : list xml) : res (list struct4) :=
  match cs with
  | [] => Ok []
  | c :: cs =>
      match kind_of (xtag c) with
      | None => area_structures file cs
      | Some k => do m <- from_label k c; do r <- area_structures file cs; Ok (mkS4 k c m file :: r)
      end
  end.
(** core.py:249-310 *)
Definition file_area (dir : str) (area : xml) : res (list struct4) :=
  match find_below $"file_name" area with
  | Some f => match xtext f with Some name => area_structures (path_join dir name) (xchildren area) | None => Err TypeError end
  | None => Err TypeError
  end.
Definition areas (root : xml) : list xml :=
  flat_map (fun a => filter (fun c => str_eqb (xtag c) a) (xchildren root)) PDS4_DATA_FILE_AREAS.
Definition read_structures (dir : str) (root : xml) : res (list struct4) :=
  do l <- rmap (file_area dir) (areas root); Ok (concat l).
(** general_objects.py:641-654; names of structures *)
Definition kind_name (k : skind) : str := match k with SHeader => $"HEADER" | SArray => $"ARRAY" | STable => $"TABLE" end.
Definition meta_text (m : meta) (k : str) : option str := match dict_get m k with Some (PStr s) => Some s | _ => None end.
Definition named_structure (s : struct4) : structure := mkS (kind_name (q_kind s)) (meta_text (q_meta s) $"local_identifier") (meta_text (q_meta s) $"name").
(** core.py:179-213 and pdr.py:335-347; [dir] is the directory of the label *)
Record product4 := mkP4 { p4_index : list str; p4_objects : list (str * option nat); p4_structures : list struct4 }.
Definition open_pds4 (dir : str) (raw : xml) : res product4 :=
  do root <- read_label raw;
  do l <- read_structures dir root;
  if contains $"Product" (xtag root) then
    let '(index, objects) := init_pds4 (map named_structure l) in Ok (mkP4 index objects l)
  else Err ValueError.
(** pdr.py:714-757 [_load_pds4] of an object; FITS files, headers and the label are left out *)
Inductive object4 := OArray4 (a : arr pix) | OTable4 (t : list (str * list dfvalue)).
Definition load_pds4 (new_numpy : bool) (junk : nat -> nat -> Z) (contents : str -> option str) (p : product4) (name : str) : res object4 :=
  match dict_get (p4_objects p) name with
  | None => Err KeyError
  | Some None => Err NotImplementedError_
  | Some (Some i) =>
      match nth_error (p4_structures p) i with
      | None => Err KeyError
      | Some s =>
          if existsb (fun e => endswith e (lower (q_file s))) [$".fits"; $".fit"; $".fits.gz"; $".fit.gz"; $".fz"] then Err NotImplementedError_
          else match q_kind s with
               | SHeader => Err NotImplementedError_
               | SArray =>
                   do m <- array_meta_of (q_meta s);
                   match contents (q_file s) with None => Err OSError | Some f => do a <- read_array new_numpy m f; Ok (OArray4 a) end
               | STable =>
                   match contents (q_file s) with None => Err OSError | Some f => do t <- table_value junk (q_label s) (q_meta s) f; Ok (OTable4 t) end
               end
      end
  end.
