(** Model of how the bytes of the fields of PDS4 tables are found: the manifest of fields
    and groups (pdr/pds4_tools/reader/table_objects.py:609-1414), delimited records
    (pdr/pds4_tools/reader/read_tables.py:302-607), fixed-width records (188-299) and the
    part of read_table_data (816-947) that calls them.  The conversion of the bytes to
    values and what follows is not modelled here.  Line numbers cite read_tables.py
    unless said.  numpy's arithmetic is that of numpy 2. *)
From Coq Require Import ZArith.
From Verif.Base Require Import Py.
From Verif.Model Require Import Types Scaling Pds4Types.

Open Scope nat_scope.
(** ** The label: fields and groups of a record, with location and length in bytes (from
    1; unused in delimited tables) *)
Inductive item :=
| Fld (location len : Z)
| Grp (repetitions : nat) (location len : Z) (children : list item).

(** ** table_objects.py:1031-1111: the manifest lists fields and groups with the depth
    of the groups they are in; [Uniformly_Sampled] fields come first.  Items are compared
    by identity (general_objects.py:528-538): they are their indices. *)
Record entry := mkE { group_level : nat; group : option nat; (* repetitions *) loc : Z; len_ : Z }.
Definition is_group (e : entry) : bool := match group e with Some _ => true | None => false end.
Definition repetitions (e : entry) : nat := match group e with Some r => r | None => 0 end.
Fixpoint flatten_item (lvl : nat) (i : item) : list entry :=
  match i with
  | Fld l n => [mkE lvl None l n]
  | Grp r l n cs => mkE lvl (Some r) l n :: flat_map (flatten_item (S lvl)) cs
  end.
Definition flatten (lvl : nat) (f : list item) : list entry := flat_map (flatten_item lvl) f.
Definition manifest (uniform : nat) (f : list item) : list entry := repeat (mkE 0 None 0 0) uniform ++ flatten 0 f.
Definition dummy : entry := mkE 0 None 0 0.
Definition ent (m : list entry) (i : nat) : entry := nth i m dummy.

(** 769-817 [get_children_by_idx]; [None] is the index -1 *)
Fixpoint scan (lvl : nat) (direct : bool) (i : nat) (l : list entry) : list nat :=
  match l with
  | [] => []
  | e :: l =>
      if lvl <=? group_level e
      then (if (group_level e =? lvl) || negb direct then [i] else []) ++ scan lvl direct (S i) l
      else []
  end.
Definition children (m : list entry) (parent : option nat) (direct : bool) : list nat :=
  match parent with
  | None => scan 0 direct 0 m
  | Some p => scan (S (group_level (ent m p))) direct (S p) (skipn (S p) m)
  end.
(** 819-855 [get_parent_by_idx] *)
Fixpoint parent_below (m : list entry) (lvl : nat) (i : nat) : option nat :=
  match i with
  | 0 => None
  | S i => if (S (group_level (ent m i)) =? lvl) && is_group (ent m i) then Some i else parent_below m lvl i
  end.
Definition parent_of (m : list entry) (child : nat) : option nat := parent_below m (group_level (ent m child)) child.
(** 857-889 [get_parents_by_idx], nearest first (a parent is never missing) *)
Fixpoint parents_n (m : list entry) (n : nat) (i : nat) : list nat :=
  match n with
  | 0 => []
  | S n => match parent_of m i with Some p => p :: parents_n m n p | None => [] end
  end.
Definition parents (m : list entry) (child : nat) : list nat := parents_n m (group_level (ent m child)) child.
Definition in_list (i : nat) (l : list nat) : bool := existsb (Nat.eqb i) l.
(** 891-944 [get_field_offset]; the depth of the recursion is that of the groups *)
Fixpoint field_offset (fuel : nat) (m : list entry) (field : nat) (parent : option nat) : nat :=
  match fuel with
  | 0 => 0
  | S fuel =>
      (fix loop (l : list nat) (offset_num : nat) : nat :=
         match l with
         | [] => offset_num
         | c :: l =>
             if c =? field then offset_num
             else match group (ent m c) with
                  | None => loop l (offset_num + 1)
                  | Some r =>
                      let offset_add := field_offset fuel m field (Some c) in
                      if in_list field (children m (Some c) false) then offset_num + offset_add
                      else loop l (offset_num + offset_add * r)
                  end
         end) (children m parent true) 0
  end.
(** 946-1002 [get_field_skip_factors], of one group and of all the groups of a field,
    outermost first *)
Fixpoint skip_factor (fuel : nat) (m : list entry) (field : nat) (parent : nat) : nat :=
  match fuel with
  | 0 => 0
  | S fuel =>
      fold_left (fun skip c =>
        match group (ent m c) with
        | None => if c =? field then skip else skip + 1
        | Some r => skip + skip_factor fuel m field c * r
        end) (children m (Some parent) true) 0
  end.
Definition skip_factors (m : list entry) (field : nat) : list nat :=
  map (skip_factor (length m) m field) (rev (parents m field)).
(** 1273-1297: the repetitions of the groups of a field, outermost first (the shape
    without the number of records) *)
Definition group_shape (m : list entry) (field : nat) : list nat :=
  map (fun p => repetitions (ent m p)) (rev (parents m field)).
(** 701-721 *)
Definition field_indices (m : list entry) : list nat := filter (fun i => negb (is_group (ent m i))) (seq 0 (length m)).

(** ** Delimited tables *)
Definition QUOTE : ascii := """"%char.
Definition first_is_quote (v : str) : bool := match v with c :: _ => Ascii.eqb c QUOTE | [] => false end.
Definition last_is_quote (v : str) : bool := match rev v with c :: _ => Ascii.eqb c QUOTE | [] => false end.
(** 545-549: index of the first of the values that contains a quote *)
Fixpoint next_quote (l : list str) : option nat :=
  match l with
  | [] => None
  | v :: l => if has_char QUOTE v then Some 0 else match next_quote l with Some k => Some (S k) | None => None end
  end.
(** 525-589: the values of a record with quotes; [fuel] is the number of values.  Texts
    that are not UTF-8 are not modelled. *)
Fixpoint unquote (fuel : nat) (d : ascii) (l : list str) : list str :=
  match fuel, l with
  | S fuel, v :: rest =>
      let found := if first_is_quote v
                   then if has_char QUOTE (skipn 1 v) then Some 0
                        else match next_quote rest with Some k => Some (S k) | None => None end
                   else None in
      match found with
      | Some k =>
          if last_is_quote (nth k l [])
          then let original := join [d] (firstn (S k) l) in
               firstn (length original - 2) (skipn 1 original) :: unquote fuel d (skipn (S k) l)
          else v :: unquote fuel d rest
      | None => v :: unquote fuel d rest
      end
  | _, _ => []
  end.
Definition record_values (d : ascii) (record : str) : list str :=
  let l := split_on d record in
  if has_char QUOTE record then unquote (length l) d l else l.
(** 517-605: the start bytes of one record; [num] columns, the last entry is the end.
    Entries that are not written are what np.empty gives ([junk]). *)
Fixpoint starts_from (z : Z) (vals : list str) : list Z :=
  match vals with [] => [] | v :: vals => z :: starts_from (z + Z.of_nat (length v) + 1)%Z vals end.
Definition total (vals : list str) : Z := fold_left (fun z v => z + Z.of_nat (length v) + 1)%Z vals 0%Z.
Definition record_starts (num : nat) (junk : nat -> Z) (vals : list str) : res (list Z) :=
  if length vals <=? num + 1
  then Ok (map (fun c => if c =? num then total vals else nth c (starts_from 0 vals) (junk c)) (seq 0 (num + 1)))
  else Err IndexError.
(** 472-486 *)
Definition prod_n (l : list nat) : nat := fold_left Nat.mul l 1.
Definition num_columns (m : list entry) : nat :=
  fold_left (fun n i => n + prod_n (group_shape m i)) (field_indices m) 0.

(** The state while fields are extracted: [start_bytes], a list of columns, some of
    which have been set to None; a column gives the start byte for each record. *)
Definition column := list Z.
Definition store := list (option column).
Definition wrapped (t : ptype) (z : Z) : Z := wrap_t t z.
Definition start_at (st : store) (c : Z) (r : nat) : res Z :=
  do col <- zindex st c;
  match col with
  | None => Err TypeError
  | Some col => match nth_error col r with Some z => Ok z | None => Err IndexError end
  end.
Definition record_at (records : list str) (r : nat) : res str :=
  match nth_error records r with Some s => Ok s | None => Err IndexError end.
(** [t] is the type of start bytes, [tc] that of column numbers (None: Python integers) *)
Definition cell_at (records : list str) (t : ptype) (tc : option ptype) (st : store) (c : Z) (r : nat) : res str :=
  do a <- start_at st c r;
  do b <- start_at st (match tc with Some tc => wrapped tc (c + 1)%Z | None => (c + 1)%Z end) r;
  do s <- record_at records r;
  Ok (zslice a (wrapped t (b - 1)%Z) s).
(** itertools.product of ranges *)
Fixpoint positions (shape : list nat) : list (list nat) :=
  match shape with
  | [] => [[]]
  | n :: shape => flat_map (fun i => map (cons i) (positions shape)) (seq 0 n)
  end.
Fixpoint dot (a b : list nat) : nat :=
  match a, b with x :: a, y :: b => x * y + dot a b | _, _ => 0 end.
(** 360-396: the columns of a field in groups *)
Definition group_columns (current : nat) (shape skips : list nat) : list nat :=
  map (fun ip => current + fst ip + dot skips (snd ip)) (combine (seq 0 (prod_n shape)) (positions shape)).
Definition max_column (current : nat) (shape skips : list nat) : nat :=
  current + (prod_n shape - 1) + dot (map (fun n => n - 1) shape) skips.
Definition set_none (c : nat) (st : store) : store := firstn c st ++ match skipn c st with _ :: l => None :: l | [] => [] end.
(** 409-417 *)
Fixpoint release (tc : ptype) (columns : list nat) (todo : list nat) (st : store) : res store :=
  match todo with
  | [] => Ok st
  | c :: todo =>
      let prev := wrapped tc (Z.of_nat c - 1)%Z in
      do gone <- (if existsb (fun k => Z.eqb (Z.of_nat k) prev) columns || (prev <? 0)%Z then Ok true
                  else do col <- zindex st prev; Ok match col with None => true | Some _ => false end);
      release tc columns todo (if gone then set_none c st else st)
  end.
(** 302-417 [_extract_delimited_field_data] *)
Definition extract_delimited (records : list str) (t : ptype) (st : store) (current num_records : nat) (shape skips : list nat)
  : res (list str * store) :=
  if (length shape =? 0) || (prod_n shape =? 0) then
    do l <- rmap (fun r => cell_at records t None st (Z.of_nat current) r) (seq 0 num_records);
    Ok (l, set_none current st)
  else
    let columns := group_columns current shape skips in
    do tc <- min_type_list [Z.of_nat (max_column current shape skips)];
    do l <- rmap (fun r => rmap (fun c => cell_at records t (Some tc) st (Z.of_nat c) r) columns) (seq 0 num_records);
    do st' <- release tc columns columns st;
    Ok (concat l, st').

(** bytes.split of a text *)
Fixpoint split_seq (sep : str) (skip : nat) (s : str) : list str :=
  match s with
  | [] => [[]]
  | c :: s' =>
      match skip with
      | S k => split_seq sep k s'
      | 0 => if startswith sep s then [] :: split_seq sep (length sep - 1) s'
             else match split_seq sep 0 s' with [] => [[c]] | w :: ws => (c :: w) :: ws end
      end
  end.
(** 856-915: the bytes of every field of a delimited table, in the order of the label;
    [junk c r] is what np.empty has for column [c] and record [r] *)
Definition longest (records : list str) : Z := fold_left (fun z r => Z.max z (Z.of_nat (length r))) records 0%Z.
Definition extract_fields (m : list entry) (records : list str) (t : ptype) (num_records : nat) :
  list nat -> store -> res (list (list str)) :=
  fix loop (fields : list nat) (st : store) : res (list (list str)) :=
    match fields with
    | [] => Ok []
    | f :: fields =>
        do r <- extract_delimited records t st (field_offset (S (length m)) m f None) num_records (group_shape m f) (skip_factors m f);
        do rest <- loop fields (snd r);
        Ok (fst r :: rest)
    end.
Definition enum {A} (l : list A) : list (nat * A) := combine (seq 0 (length l)) l.
Definition read_delimited (uniform : nat) (f : list item) (field_delimiter : ascii) (record_delimiter : str)
    (num_records : nat) (junk : nat -> nat -> Z) (data : str) : res (list (list str)) :=
  let m := manifest uniform f in
  let records := firstn num_records (split_seq record_delimiter 0 data) in
  match records with
  | [] => Err ValueError (* max() of nothing *)
  | _ =>
      do t <- min_type_list [(longest records + 1)%Z];
      let vals := map (record_values field_delimiter) records in
      do rows <- rmap (fun p => record_starts (num_columns m) (fun c => junk c (fst p)) (snd p)) (enum vals);
      let st := map (fun c => Some (map (fun row => nth c row 0%Z) rows)) (seq 0 (num_columns m + 1)) in
      extract_fields m (map (join [field_delimiter]) vals) t num_records (skipn uniform (field_indices m)) st
  end.

(** ** Fixed-width tables *)
(** 222-228: the fields are one after the other *)
Fixpoint ends_meet (rlens : list Z) (shape : list nat) : bool :=
  match rlens, shape with
  | a :: ((b :: _) as rlens), _ :: ((n :: _) as shape) => (b * Z.of_nat n =? a)%Z && ends_meet rlens shape
  | _, _ => true
  end.
Definition contiguous (field_length : Z) (glocs rlens : list Z) (shape : list nat) : bool :=
  forallb (Z.eqb 0) (skipn 1 glocs) && (field_length =? last rlens 0)%Z && ends_meet rlens shape.
Definition cut (data : str) (start field_length : Z) : str := zslice start (start + field_length)%Z data.
Fixpoint zdot (glocs rlens : list Z) (pos : list nat) : Z :=
  match glocs, rlens, pos with
  | g :: glocs, r :: rlens, p :: pos => (g + r * Z.of_nat p + zdot glocs rlens pos)%Z
  | _, _, _ => 0%Z
  end.
(** 188-299 [_extract_fixed_width_field_data] *)
Definition extract_fixed (data : str) (field_length field_location record_length : Z) (num_records : nat)
    (shape : list nat) (glocs rlens : list Z) : list str :=
  match shape with
  | [] => map (fun r => cut data (Z.of_nat r * record_length + field_location)%Z field_length) (seq 0 num_records)
  | _ =>
      if contiguous field_length glocs rlens shape then
        flat_map (fun r =>
          map (fun e => cut data (Z.of_nat r * record_length + hd 0%Z glocs + field_location + field_length * Z.of_nat e)%Z field_length)
              (seq 0 (prod_n shape))) (seq 0 num_records)
      else
        map (fun p => cut data (record_length * Z.of_nat (hd 0%nat p) + field_location + zdot glocs rlens (skipn 1 p))%Z field_length)
            (positions (num_records :: shape))
  end.
(** 919-934, and the check of _validate_table (table_objects.py:1355-1360) *)
Definition field_bytes (m : list entry) (data : str) (record_length : Z) (num_records f : nat) : list str :=
  let ps := rev (parents m f) in
  extract_fixed data (len_ (ent m f)) (loc (ent m f) - 1)%Z record_length num_records (group_shape m f)
    (map (fun p => loc (ent m p) - 1)%Z ps)
    (map (fun p => len_ (ent m p) / Z.of_nat (repetitions (ent m p)))%Z ps).
Fixpoint check_groups (m : list entry) : res unit :=
  match m with
  | [] => Ok tt
  | e :: m =>
      match group e with
      | None => check_groups m
      | Some 0 => Err ZeroDivisionError
      | Some r => if (len_ e mod Z.of_nat r =? 0)%Z then check_groups m else Err StandardsError
      end
  end.
Definition read_fixed (uniform : nat) (f : list item) (record_length : Z) (num_records : nat) (data : str) : res (list (list str)) :=
  let m := manifest uniform f in
  do _ <- check_groups m;
  Ok (map (field_bytes m data record_length num_records) (skipn uniform (field_indices m))).

(** ** The bytes of the table (read_tables.py:30-77, core.py:314-358 [read_byte_data]);
    the offset is not negative *)
Definition read_byte_data (file : str) (start_byte : nat) (stop_byte : Z) : str :=
  let read_size := (stop_byte - Z.of_nat start_byte)%Z in
  if (0 <? stop_byte)%Z
  then if (read_size <? 0)%Z then skipn start_byte file (* file.read(-n) *) else firstn (Z.to_nat read_size) (skipn start_byte file)
  else skipn start_byte file.
Definition read_fixed_file (uniform : nat) (f : list item) (record_length : Z) (num_records offset : nat) (file : str) : res (list (list str)) :=
  read_fixed uniform f record_length num_records
    (read_byte_data file offset (Z.of_nat offset + Z.of_nat num_records * record_length)%Z).
Definition read_delimited_file (uniform : nat) (f : list item) (field_delimiter : ascii) (record_delimiter : str) (num_records : nat)
    (object_length maximum_record_length : option Z) (junk : nat -> nat -> Z) (offset : nat) (file : str) : res (list (list str)) :=
  let stop_byte := match object_length, maximum_record_length with
                   | Some o, _ => (Z.of_nat offset + o)%Z
                   | None, Some l => (Z.of_nat offset + Z.of_nat num_records * l)%Z
                   | None, None => (-1)%Z
                   end in
  read_delimited uniform f field_delimiter record_delimiter num_records junk (read_byte_data file offset stop_byte).
