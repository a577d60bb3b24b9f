(** Model of PDS3 ARRAY objects: pdr/loaders/table.py:35-63 [read_array],
    pdr/loaders/queries.py:255-280 ([check_array_for_subobject], [get_array_num_items]) and
    641-663 ([parse_array_structure]), pdr/np_utils.py:69-95 [np_from_buffered_io].
    [np_cell] is also what binary tables are read with.  Native byte order is little. *)
From Coq Require Import QArith.
From Verif.Base Require Import Py Val Numpy Float.
From Verif.Model Require Import Types PvlLiteral Scaling Pds4Types Pds4Values Table.
Open Scope Z_scope.

(** ** One element of a numpy array: a number, or bytes (types S and V) *)
Inductive cell := CNum (x : elt) | CBytes (s : str).
(** byte strings (S) lose the zero bytes at their ends, void (V) does not *)
Definition np_cell (t : tmeaning) (bs : list ascii) : cell :=
  let w := t_size t in
  match t_kind t with
  | KSigned => CNum (EI (wrap true (Z.of_nat w) (word (t_order t) bs)))
  | KUnsigned => CNum (EI (wrap false (Z.of_nat w) (word (t_order t) bs)))
  | KFloat => CNum (EF (ieee_of w (word (t_order t) bs)))
  | KBytes => CBytes (drop_nuls bs)
  | KVoid => CBytes bs
  end.
(** np.dtype of a string: TypeError if there is no such type *)
Definition np_dtype (s : str) : res tmeaning := match numpy_meaning s with Some t => Ok t | None => Err TypeError end.

(** ** queries.py:273-280 [get_array_num_items], and the shape [reshape] gets.  Sizes are
    natural numbers (negative ones are errors here); a size that is a string is not modelled. *)
Definition axis_size (v : pv) : res nat := match v with PInt z => if z <? 0 then Err ValueError else Ok (Z.to_nat z) | _ => Err TypeError end.
Definition axis_sizes (items : pv) : res (list nat) :=
  match items with
  | PInt _ => do n <- axis_size items; Ok [n]
  | PTuple l => rmap axis_size l
  | _ => Err TypeError
  end.
(** reduce of an empty sequence is a TypeError *)
Definition get_array_num_items (sh : list nat) : res nat := match sh with [] => Err TypeError | _ => Ok (prod sh) end.

(** ** np_from_buffered_io of a plain type.  [in_memory]: the file is compressed, and the
    type's itemsize is asked for: AttributeError, as the type is a string here.  np.fromfile
    reads as many complete elements as there are, up to [count]; it has ValueError for a
    type without size *)
Definition fromfile (in_memory : bool) (file : list ascii) (start count : nat) (dt : str) : res (list cell) :=
  if in_memory then Err AttributeError
  else
    do t <- np_dtype dt;
    if Nat.eqb (t_size t) 0 then Err ValueError
    else
      let bs := skipn start file in
      Ok (map (np_cell t) (firstn count (chunks (t_size t) bs))).

(** ** re.findall("[+-]?\d+\.?\d*", text), for text of ASCII characters *)
Definition is_sign (c : ascii) : bool := Ascii.eqb c "+" || Ascii.eqb c "-".
(** the match at the start of a text: its characters and the rest *)
Definition match_number (s : str) : option (str * str) :=
  let (sg, r) := match s with c :: s' => if is_sign c then ([c], s') else ([], s) | [] => ([], s) end in
  match span is_digit r with
  | ([], _) => None
  | (ip, r) =>
      match r with
      | c :: r' => if Ascii.eqb c "." then let (fp, r'') := span is_digit r' in Some (sg ++ ip ++ c :: fp, r'') else Some (sg ++ ip, r)
      | [] => Some (sg ++ ip, [])
      end
  end.
(** the fuel is at least the length of the text *)
Fixpoint findall (fuel : nat) (s : str) : list str :=
  match fuel, s with
  | S fuel, c :: s' =>
      match match_number s with
      | Some (tok, r) => tok :: findall fuel r
      | None => findall fuel s'
      end
  | _, _ => []
  end.
Definition numbers_in (text : str) : list str := findall (length text) text.

(** ** ndarray.astype from float64: [repr] is the text of a number.  Conversions of numbers
    out of the range of an integer type are not specified by numpy; here they wrap. *)
Definition trunc (x : num) : Z := match x with Fin q => Z.quot (Qnum q) (QDen q) | _ => 0 end.
Definition astype (repr : num -> str) (t : tmeaning) (x : num) : cell :=
  match t_kind t with
  | KSigned => CNum (EI (wrap true (Z.of_nat (t_size t)) (trunc x)))
  | KUnsigned => CNum (EI (wrap false (Z.of_nat (t_size t)) (trunc x)))
  | KFloat => CNum (EF (match x with Fin q => fconv (if Nat.eqb (t_size t) 4 then DF32 else DF64) q | _ => x end))
  | KBytes | KVoid => CBytes (firstn (t_size t) (repr x))
  end.

(** ** table.py:35-63.  The file's text is [text] (open(fn).read()), its bytes [file].
    52-53: had a number not been one for float, the words of the text would be the elements
    ([ValueError] here; it never happens, see C72_numbers).  An ARRAY with a subobject (queries.py:654)
    is a NotImplementedError here. *)
Definition need_str (b : multidict) (k : str) : res str := match md_get b k with Some (PStr s) => Ok s | Some _ => Err TypeError | None => Err KeyError end.
Definition need_nat (b : multidict) (k : str) : res nat := match md_get b k with Some v => axis_size v | None => Err KeyError end.
Definition is_binary (b : multidict) : bool := match md_get b $"INTERCHANGE_FORMAT" with Some (PStr s) => str_eqb s $"BINARY" | _ => false end.
Definition parse_array_structure (b : multidict) : res (option str) :=
  if negb (is_binary b) then Ok None
  else
    do sub <- check_array_for_subobject b;
    if sub : bool then Err NotImplementedError_
    else do name <- need_str b $"DATA_TYPE"; do w <- need_nat b $"BYTES"; do dt <- sample_types name w true; Ok (Some dt).
Definition read_array (repr : num -> str) (in_memory : bool) (file text : str) (b : multidict) (start : nat) : res (arr cell) :=
  do dt <- parse_array_structure b;
  match dt with
  | Some dt =>
      do items <- need b $"AXIS_ITEMS";
      do sh <- axis_sizes items;
      do count <- get_array_num_items sh;
      do l <- fromfile in_memory file start count dt;
      reshape sh (flat_array (CBytes []) l)
  | None =>
      do l <- rmap float_bytes (numbers_in text);
      do items <- need b $"AXIS_ITEMS";
      do sh <- axis_sizes items;
      do a <- reshape sh (flat_array (CBytes []) (map (fun x => CNum (EF x)) l));
      if md_has b $"DATA_TYPE" then
        do name <- need_str b $"DATA_TYPE"; do w <- need_nat b $"BYTES"; do dt <- sample_types name w true; do t <- np_dtype dt;
        reshape sh (flat_array (CBytes []) (map (astype repr t) l))
      else Ok a
  end.
