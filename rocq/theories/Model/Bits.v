(** Model of bit columns: pdr/bit_handling.py (line numbers cite it unless said),
    with the checkers of pdr/formats/checkers.py:748-801 and pdr/formats/juno.py:34-58.
    A bytes object is a list of numbers below 256; a numpy structured record is the
    list of its fields.  The bit strings are Python strings of '0' and '1'. *)
From Verif.Base Require Import Py Val.
From Verif.Model Require Import Types.
Open Scope nat_scope.

(** bin(n)[2:] and str.zfill *)
Definition bin_ (n : N) : str := to_base 2 n.
Definition zfill (w : nat) (s : str) : str := repeat "0"%char (w - List.length s) ++ s.
(** the unsigned integer stored in some bytes *)
Definition big_value (bs : list N) : N := fold_left (fun a b => a * 256 + b)%N bs 0%N.
Definition word_value (little : bool) (bs : list N) : N := big_value (if little then rev bs else bs).

(** bit_handling.py:57-82 [factor_to_dtype]: the sizes of the words; [lengths] is the
    stack (top first).  The byte order is the same for all words. *)
Fixpoint factor_loop (fuel : nat) (lengths : list nat) (remaining : nat) : res (list nat) :=
  match fuel with
  | O => Err OutOfFuel
  | S fuel =>
    if remaining =? 0 then Ok []
    else match lengths with
         | [] => Err IndexError
         | l :: ls =>
           if remaining <? l then factor_loop fuel ls remaining
           else do rest <- factor_loop fuel lengths (remaining - l); Ok (l :: rest)
         end
  end.
Definition factor_to_dtype (field_length : nat) : res (list nat) :=
  if existsb (Nat.eqb field_length) [1; 2; 4; 8] then Ok [field_length]
  else factor_loop (field_length + 6) [8; 4; 2; 1] field_length.

(** the fields of one record *)
Fixpoint cut (sizes : list nat) (bs : list N) : list (list N) :=
  match sizes with [] => [] | n :: sizes' => firstn n bs :: cut sizes' (skipn n bs) end.
(** np.frombuffer(buffer, dtype): whole records of [n] bytes or ValueError *)
Fixpoint chunks (fuel n : nat) (bs : list N) : list (list N) :=
  match fuel with
  | O => []
  | S fuel => match bs with [] => [] | _ => firstn n bs :: chunks fuel n (skipn n bs) end
  end.
Definition frombuffer (sizes : list nat) (buffer : list N) : res (list (list (list N))) :=
  let n := fold_right Nat.add 0 sizes in
  if n =? 0 then Err ValueError
  else if negb (List.length buffer mod n =? 0) then Err ValueError
  else Ok (map (cut sizes) (chunks (List.length buffer) n buffer)).
(** bit_handling.py:85-115 [convert_byte_column_to_bits] *)
Definition convert_byte_column_to_bits (column : list (list N)) (little : bool) : res (list str) :=
  match column with
  | [] => Err IndexError
  | first :: _ =>
    do dtype <- factor_to_dtype (List.length first);
    do records <- frombuffer dtype (List.concat column);
    Ok (map (fun fields => List.concat (map (fun f => zfill (8 * List.length f) (bin_ (word_value little f))) fields)) records)
  end.

(** bit_handling.py:149-167 [split_bits] (any sequence) *)
Definition split_bits {A} (bits : list A) (start_bit_list bit_size_list : list Z) : list (list A) :=
  map (fun se => zslice (fst se) (snd se) bits)
    (combine start_bit_list (map (fun ss => fst ss + snd ss)%Z (combine start_bit_list bit_size_list))).

(** One row of the format definition, as far as bit columns go; [f_bits] is None
    when start_bit_list is not a list. *)
Record fmtrow := mkRow { f_name : str; f_type : str; f_bits : option (list Z * list Z) }.
Inductive cell := CBytes (bs : list N) | CBits (s : str) | CList (l : list str) | COther.
Definition table := list (str * list cell).
Definition get_column (t : table) (name : str) : res (list cell) :=
  match find (fun c => str_eqb (fst c) name) t with Some c => Ok (snd c) | None => Err KeyError end.
Definition as_bytes (c : cell) : res (list N) := match c with CBytes b => Ok b | _ => Err TypeError end.
Definition as_bits (c : cell) : res str := match c with CBits s => Ok s | _ => Err TypeError end.
(** bit_handling.py:37-54 [convert_to_full_bit_string] *)
Fixpoint convert_to_full_bit_string (fmt : list fmtrow) (t : table) : res table :=
  match fmt with
  | [] => Ok t
  | r :: fmt' =>
    match f_bits r with
    | None => convert_to_full_bit_string fmt' t
    | Some _ =>
      do col <- get_column t (f_name r);
      do bytes <- rmap as_bytes col;
      do bits <- convert_byte_column_to_bits bytes (str_eqb (determine_byte_order (f_type r)) $"<");
      convert_to_full_bit_string fmt' (dict_set t (f_name r) (map CBits bits))
    end
  end.
(** bit_handling.py:119-145 [splice_bit_string] *)
Fixpoint splice_bit_string (fmt : list fmtrow) (t : table) : res table :=
  match fmt with
  | [] => Ok t
  | r :: fmt' =>
    match f_bits r with
    | None => splice_bit_string fmt' t
    | Some (starts, sizes) =>
      do col <- get_column t (f_name r);
      do bits <- rmap as_bits col;
      splice_bit_string fmt'
        (dict_set t (f_name r) (map (fun b => CList (split_bits b (map (fun v => v - 1)%Z starts) sizes)) bits))
    end
  end.
(** bit_handling.py:22-34 [expand_bit_strings]; [has_bits]: fmtdef has a start_bit_list column *)
Definition expand_bit_strings (fmt : list fmtrow) (t : table) : res table :=
  if forallb (fun r => match f_bits r with None => true | _ => false end) fmt then Ok t
  else do t <- convert_to_full_bit_string fmt t; splice_bit_string fmt t.
(** Simplification: pandas' [dropna] on the start_bit_list column keeps exactly the
    rows that have one; the table's column names are unique. *)

(** ** Positions of the bit columns in a label *)
Definition get_ (m : multidict) (k : str) : pv := match md_get m k with Some v => v | None => PNone end.
Definition truthy_ (v : pv) : bool :=
  match v with PNone => false | PInt z => negb (z =? 0)%Z | PStr [] => false | PTuple [] => false | PBool b => b | _ => true end.
Definition zrange (n : Z) : list Z := map Z.of_nat (seq 0 (Z.to_nat n)).
(** one BIT_COLUMN: its start bits and sizes (189-206) *)
Definition bit_column_positions (m : multidict) : res (list pv * list pv) :=
  if truthy_ (get_ m $"ITEMS") then
    match get_ m $"ITEMS", get_ m $"ITEM_BITS", get_ m $"START_BIT" with
    | PInt items, PInt ib, PInt s => Ok (map (fun i => PInt (s + i * ib)) (zrange items), map (fun _ => PInt ib) (zrange items))
    | PInt items, _, _ => if (items <=? 0)%Z then Ok ([], []) else Err TypeError
    | _, _, _ => Err TypeError
    end
  else Ok ([get_ m $"START_BIT"], [get_ m $"BITS"]).
(** formats/juno.py:34-58 [bit_start_find_and_fix] *)
Definition bit_start_find_and_fix (cols : list multidict) (starts : list pv) : res (option (list pv)) :=
  match rev cols with
  | [] => Err IndexError
  | m :: _ =>
    match get_ m $"NAME" with
    | PStr s => if str_eqb s $"NADIR_OFFSET_SIGN" then
                  match starts with [] => Err IndexError | _ => Ok (Some (removelast starts ++ [PInt 16])) end
                else Ok None
    | _ => Ok None
    end
  end.
(** formats/checkers.py:766-777: "instrument in 'JOVIAN...'" is a substring test *)
Definition check_special_bit_start_case (instrument : str) (cols : list multidict) (starts : list pv) : res (option (list pv)) :=
  if contains instrument $"JOVIAN INFRARED AURORAL MAPPER" then bit_start_find_and_fix cols starts else Ok None.
(** bit_handling.py:203-226 [get_bit_start_and_size]: (start_bit_list, bit_size_list) *)
Definition get_bit_start_and_size (instrument : str) (cols : list multidict) : res (list pv * list pv) :=
  match cols with
  | [] => Err KeyError
  | _ =>
    do ps <- rmap bit_column_positions cols;
    let starts := List.concat (map fst ps) in let sizes := List.concat (map snd ps) in
    do special <- check_special_bit_start_case instrument cols starts;
    Ok (match special with Some s => s | None => starts end, sizes)
  end.
(** bit_handling.py:170-200 [set_bit_string_data_type] with formats/checkers.py:748-763:
    the new DATA_TYPE; [bit_type] is the first bit column's BIT_DATA_TYPE *)
Definition set_bit_string_data_type (instrument data_type : str) (bit_type : option str) : res str :=
  if str_in instrument [$"ALPHA PARTICLE X-RAYSPECTROMETER"; $"JOVIAN AURORAL PLASMA DISTRIBUTIONS EXPERIMENT";
       $"CHEMISTRY AND MINERALOGY INSTRUMENT"; $"MARS ADVANCED RADAR FOR SUBSURFACE ANDIONOSPHERE SOUNDING"]
  then Ok $"MSB_BIT_STRING"
  else match bit_type with
       | None => Err ValueError
       | Some bt =>
         match sample_types bt 1 true with
         | Ok (c :: _) => Ok (if Ascii.eqb c ">" then $"MSB_BIT_STRING"
                              else if Ascii.eqb c "<" then $"LSB_BIT_STRING" else data_type)
         | Ok [] => Err IndexError
         | Err KeyError | Err ValueError => Err ValueError
         | Err e => Err e
         end
       end.
