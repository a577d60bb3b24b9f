(** Model of how a PDS4 table becomes a DataFrame: the names of fields
    (pdr/pds4_tools/reader/table_objects.py:1114-1270, 1461-1557), the table made of the
    fields (read_tables.py:610-770, 900-960), structured_array_to_df
    (pdr/pd_utils.py:271-320, pdr/np_utils.py:18-53) and the names of columns and objects
    (pdr/pdr.py:335-347, 714-757). *)
From Coq Require Import QArith.
From Verif.Base Require Import Py Val.
From Verif.Model Require Import Types Scaling Pds4Types Pds4Tables Pds4Values.
Open Scope nat_scope.

(** ** Names.  [ns] are the names in the label, in the order of the manifest; fields have
    one *)
Definition same_parent (a b : option nat) : bool :=
  match a, b with Some x, Some y => x =? y | None, None => true | _, _ => false end.
(** table_objects.py:1114-1155 [_create_group_names]: the groups of one level, each with
    its number *)
Fixpoint number_groups (m : list entry) (prev : option (option nat)) (counter : nat) (l : list nat) : list (nat * nat) :=
  match l with
  | [] => []
  | g :: l =>
      let p := parent_of m g in
      let c := match prev with Some q => if same_parent p q then counter + 1 else 0 | None => 0 end in
      (g, c) :: number_groups m (Some p) c l
  end.
Fixpoint group_numbers (fuel : nat) (m : list entry) (lvl : nat) : list (nat * nat) :=
  match fuel with
  | 0 => []
  | S fuel =>
      match filter (fun i => is_group (ent m i) && (group_level (ent m i) =? lvl)) (seq 0 (length m)) with
      | [] => []
      | l => number_groups m None 0 l ++ group_numbers fuel m (S lvl)
      end
  end.
Definition group_number (m : list entry) (i : nat) : nat :=
  match find (fun p => fst p =? i) (group_numbers (length m) m 0) with Some p => snd p | None => 0 end.
Definition item_name (m : list entry) (ns : list (option str)) (i : nat) : str :=
  match nth i ns None with Some s => s | None => $"GROUP_" ++ str_of_nat (group_number m i) end.
(** 1224-1267 [_get_overlapping_item_idxs] *)
Definition overlapping (m : list entry) (ns : list (option str)) (i : nat) : list nat :=
  filter (fun j => str_eqb (item_name m ns j) (item_name m ns i) && Bool.eqb (is_group (ent m j)) (is_group (ent m i)))
    (children m (parent_of m i) true).
Fixpoint index_of (i : nat) (l : list nat) : nat := match l with [] => 0 | x :: l => if x =? i then 0 else S (index_of i l) end.
(** 1157-1222 [_create_full_locations] *)
Inductive step := SName (s : str) | SOverlap (n : nat).
Definition own_location (m : list entry) (ns : list (option str)) (i : nat) : list step :=
  SName (item_name m ns i) ::
  (if 2 <=? length (overlapping m ns i) then [SOverlap (index_of i (overlapping m ns i))] else []).
Definition locations (m : list entry) (ns : list (option str)) : list (list step) :=
  fold_left (fun acc i =>
    acc ++ [(match parent_of m i with Some p => nth p acc [] | None => [] end) ++ own_location m ns i]) (seq 0 (length m)) [].
(** 1461-1557 [full_name], and data_types.py:364-386 [pds_to_numpy_name] *)
Fixpoint location_name (l : list step) : str :=
  match l with
  | [] => []
  | s :: l =>
      match s with SName n => n | SOverlap k => $" [" ++ str_of_nat k ++ $"]" end
      ++ match l with SName _ :: _ => $", " | _ => [] end ++ location_name l
  end.
Definition numpy_name (s : str) : str := map (fun c => if Ascii.eqb c ":"%char then "_"%char else c) s.
Definition field_names (m : list entry) (ns : list (option str)) : list str :=
  map (fun i => numpy_name (location_name (nth i (locations m ns) []))) (field_indices m).

(** ** Tables *)
(** a field of a table: name, repetitions of its groups, special constants and values (of
    all records, one after the other) *)
Record tfield := mkT { t_name : str; t_shape : list nat; t_special : option (list (str * special)); t_vals : fvals }.
(** np.ma.is_masked *)
Definition any_masked (v : fvals) : bool :=
  match v with FInts _ l => existsb snd l | FReals l => existsb snd l | FBools l => existsb snd l | _ => false end.
(** read_tables.py:754-756.  Special constants of truth values, texts and complex numbers
    are not modelled *)
Definition mask_field (f : tfield) : res tfield :=
  match t_special f with
  | None => Ok f
  | Some sc =>
      match t_vals f with
      | FInts t l =>
          do r <- mask_constants sc (mkP t 1 (map (fun p => (EI (fst p), snd p)) l));
          Ok (mkT (t_name f) (t_shape f) (t_special f) (FInts t (map (fun c => (elt_z (fst c), snd c)) (cells (fst r)))))
      | FReals l =>
          do r <- mask_constants sc (mkP (TNum DF64) 1 (map (fun p => (EF (fst p), snd p)) l));
          Ok (mkT (t_name f) (t_shape f) (t_special f) (FReals (map (fun c => (match fst c with EF v => v | EI z => Fin (inject_Z z) end, snd c)) (cells (fst r)))))
      | _ => Ok f
      end
  end.
Fixpoint has_dup (l : list str) : bool := match l with [] => false | x :: l => str_in x l || has_dup l end.
(** read_tables.py:610-770 [new_table], without scaling: whether the table is masked, and its
    fields; the names must be different, as numpy requires *)
Definition new_table (fs : list tfield) : res (bool * list tfield) :=
  if has_dup (map t_name fs) then Err ValueError
  else
    let masked := existsb (fun f => any_masked (t_vals f)) fs in
    do fs <- (if masked then rmap mask_field fs else Ok fs);
    Ok (masked, fs).

(** ** DataFrames *)
Inductive dfvalue := VI (z : Z) | VR (v : num) | VB (b : bool) | VT (s : str) | VP (p : pix).
(** the values without their mask *)
Definition raw (v : fvals) : list dfvalue :=
  match v with
  | FInts _ l => map (fun p => VI (fst p)) l
  | FReals l => map (fun p => VR (fst p)) l
  | FBools l => map (fun p => VB (fst p)) l
  | FRaw _ l => map VP l
  | FText l => map VT l
  end.
(** pandas' sanitize_masked_array: integers become doubles, truth values objects, and
    masked values NaN, if there are any *)
Definition sanitized (v : fvals) : list dfvalue :=
  if any_masked v then
    match v with
    | FInts (TNum _) l => map (fun p : Z * bool => VR (if snd p then NaN else fconv DF64 (inject_Z (fst p)))) l
    | FInts TObj l => map (fun p : Z * bool => if snd p then VR NaN else VI (fst p)) l
    | FReals l => map (fun p : num * bool => VR (if snd p then NaN else fst p)) l
    | FBools l => map (fun p : bool * bool => if snd p then VR NaN else VB (fst p)) l
    | _ => raw v
    end
  else raw v.
(** pd_utils.py:271-292 [rectified_rec_df] and np_utils.py:18-53 [enforce_order_and_object]
    of two or more fields without shape: np.array() of a masked array drops the mask; of one:
    the array as it is.  Bytes are swapped where necessary, which leaves the values. *)
Definition plain_df (fs : list tfield) : list (str * list dfvalue) :=
  match fs with
  | [f] => [(t_name f, sanitized (t_vals f))]
  | _ => map (fun f => (t_name f, raw (t_vals f))) fs
  end.
(** the columns of a table of [n] columns *)
Definition columns_of (n : nat) (l : list dfvalue) : list (list dfvalue) :=
  map (fun j => map (fun r => nth (r * n + j) l (VI 0)) (seq 0 (length l / n))) (seq 0 n).
Definition group_df (f : tfield) : res (list (str * list dfvalue)) :=
  if 2 <? length (t_shape f) then Err NotImplementedError_
  else
    let n := prod_n (t_shape f) in
    Ok (map (fun p => (t_name f ++ $"_" ++ str_of_nat (fst p), snd p)) (enum (columns_of n (sanitized (t_vals f))))).
(** pd_utils.py:295-320 [structured_array_to_df]; no fields at all is an error of pandas *)
Fixpoint frame_pieces (buffer : list tfield) (fs : list tfield) : res (list (list (str * list dfvalue))) :=
  let flush := match buffer with [] => [] | _ => [plain_df buffer] end in
  match fs with
  | [] => Ok flush
  | f :: fs =>
      match t_shape f with
      | [] => frame_pieces (buffer ++ [f]) fs
      | _ => do d <- group_df f; do rest <- frame_pieces [] fs; Ok (flush ++ d :: rest)
      end
  end.
Definition structured_array_to_df (fs : list tfield) : res (list (str * list dfvalue)) :=
  do ps <- frame_pieces [] fs;
  match ps with [] => Err ValueError | _ => Ok (concat ps) end.
(** pdr.py:753-754: the regular expression GROUP_?\d+ *)
Fixpoint drop_digits (s : str) : str := match s with c :: r => if is_digit c then drop_digits r else s | [] => [] end.
Definition group_match (s : str) : option str :=
  if startswith $"GROUP" s then
    let t := skipn 5 s in
    let t := match t with c :: r => if Ascii.eqb c "_"%char then r else t | [] => t end in
    match t with c :: r => if is_digit c then Some (drop_digits r) else None | [] => None end
  else None.
Fixpoint remove_groups (fuel : nat) (s : str) : str :=
  match fuel with
  | 0 => s
  | S fuel =>
      match group_match s with
      | Some r => remove_groups fuel r
      | None => match s with c :: s => c :: remove_groups fuel s | [] => [] end
      end
  end.
Definition column_name (s : str) : str :=
  strip_by (fun c => Ascii.eqb c ","%char || Ascii.eqb c " "%char) (remove_groups (S (length s)) s).
Definition table_df (fs : list tfield) : res (list (str * list dfvalue)) :=
  do t <- new_table fs;
  do d <- structured_array_to_df (snd t);
  Ok (map (fun c => (column_name (fst c), snd c)) d).

(** ** From the texts of the fields to the DataFrame.  read_tables.py:900-960 *)
Inductive table_kind := Character | Binary | Delimited.
Definition convert_field (k : table_kind) (name : str) (texts : list str) : res fvals :=
  match k with
  | Character => convert_ascii name false texts
  | Binary => convert_binary name texts
  | Delimited => convert_ascii name true texts
  end.
(** what the label says of a field *)
Record fmeta := mkM { m_type : str; m_special : option (list (str * special)) }.
Definition make_fields (k : table_kind) (m : list entry) (ns : list (option str)) (metas : list fmeta) (texts : list (list str)) : res (list tfield) :=
  rmap (fun p : (str * nat) * (fmeta * list str) =>
          do v <- convert_field k (m_type (fst (snd p))) (snd (snd p));
          Ok (mkT (fst (fst p)) (group_shape m (snd (fst p))) (m_special (fst (snd p))) v))
       (combine (combine (field_names m ns) (field_indices m)) (combine metas texts)).
Definition delimited_df (f : list item) (ns : list (option str)) (metas : list fmeta) (field_delimiter : ascii) (record_delimiter : str)
    (num_records : nat) (object_length maximum_record_length : option Z) (junk : nat -> nat -> Z) (offset : nat) (file : str)
  : res (list (str * list dfvalue)) :=
  do texts <- read_delimited_file 0 f field_delimiter record_delimiter num_records object_length maximum_record_length junk offset file;
  do fs <- make_fields Delimited (manifest 0 f) ns metas texts;
  table_df fs.
Definition fixed_df (k : table_kind) (f : list item) (ns : list (option str)) (metas : list fmeta) (record_length : Z)
    (num_records offset : nat) (file : str) : res (list (str * list dfvalue)) :=
  do texts <- read_fixed_file 0 f record_length num_records offset file;
  do fs <- make_fields k (manifest 0 f) ns metas texts;
  table_df fs.

(** ** Names of objects.  core.py:232-311: structures of the label with their kind
    (HEADER, ARRAY or TABLE), local_identifier and name; pdr.py:335-347 [_init_pds4] *)
Record structure := mkS { s_kind : str; s_local : option str; s_name : option str }.
Fixpoint count_kind (k : str) (l : list structure) : nat :=
  match l with [] => 0 | s :: l => (if str_eqb (s_kind s) k then 1 else 0) + count_kind k l end.
(** general_objects.py:641-654, 347-364 and
    core.py:296 *)
Definition structure_id (before : list structure) (s : structure) : str :=
  match s_local s with
  | Some i => i
  | None => match s_name s with Some n => n | None => s_kind s ++ $"_" ++ str_of_nat (count_kind (s_kind s) before) end
  end.
Fixpoint structure_ids (before l : list structure) : list str :=
  match l with [] => [] | s :: l => structure_id before s :: structure_ids (before ++ [s]) l end.
Definition object_name (s : str) : str := map (fun c => if Ascii.eqb c " "%char then "_"%char else c) s.
(** [index], and the structure of each name: its number, None for the label *)
Definition init_pds4 (l : list structure) : list str * list (str * option nat) :=
  let ids := map object_name (structure_ids [] l) in
  (ids ++ [$"label"],
   fold_left (fun d p => Val.dict_set d (fst p) (snd p))
     (combine ids (map Some (seq 0 (length ids))) ++ [($"label", None)]) []).
