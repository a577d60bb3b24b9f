(** Model of text tables: pdr/loaders/table.py:66-110, 137-158, 186-273 ([read_table],
    [_read_as_delimited], [_read_fwf_with_colspecs], [_read_table_from_stringio],
    [_interpret_as_ascii]); pdr/loaders/queries.py:558-610 ([parse_table_structure] of a
    text table).  pandas.read_csv and pandas.read_fwf (2.x, of a StringIO, header=None) are
    modelled as external functions: pandas/_libs/src/parser/tokenizer.c and
    pandas/io/parsers/python_parser.py (FixedWidthReader).
    Simplifications: texts are of ASCII characters without NUL; a carriage return without a
    newline ends a line, but the rare re-reading of the text before it (by a following line
    that starts with blanks) is not modelled; tables are shorter than a chunk of pandas'
    low_memory mode (types are inferred from the whole column); [detect] and the
    conversions of decimal numbers are parameters. *)
From Coq Require Import QArith.
From Verif.Base Require Import Py Val Numpy Float.
From Verif.Model Require Import Types Scaling Pds4Types Pds4Values Table Position Array TableValues.
Open Scope Z_scope.

(** table.py:28 *)
Definition QUOTE : ascii := """"%char.
Definition SPACE : ascii := " "%char.
Definition PAD_CHARACTERS : str := [SPACE; TAB; QUOTE; ","%char].

(** ** pandas.read_csv: tokenizer.c [tokenize_bytes] *)
Inductive tstate :=
| StartRecord
| WhitespaceLine (* its blanks are in [t_cur] *)
| StartField | InField | InQuoted | QuoteInQuoted
| EatCrnl | EatCrnlNop.
(** the current field, the fields of the current line and the lines, last first *)
Record tok := mkTok { t_state : tstate; t_cur : str; t_row : list str; t_rows : list (list str) }.
Definition blank_but (sep c : ascii) : bool := (Ascii.eqb c SPACE || Ascii.eqb c TAB) && negb (Ascii.eqb c sep).
Definition end_field (k : tok) (st : tstate) : tok := mkTok st [] (rev (t_cur k) :: t_row k) (t_rows k).
Definition end_line (k : tok) : tok := mkTok StartRecord [] [] (rev (t_row k) :: t_rows k).
Definition push (k : tok) (st : tstate) (c : ascii) : tok := mkTok st (c :: t_cur k) (t_row k) (t_rows k).
Definition goto (k : tok) (st : tstate) : tok := mkTok st (t_cur k) (t_row k) (t_rows k).
Definition step_field (sep : ascii) (k : tok) (c : ascii) : tok :=
  if Ascii.eqb c NL then end_line (end_field k StartField)
  else if Ascii.eqb c CR then end_field k EatCrnl
  else if Ascii.eqb c QUOTE then goto k InQuoted
  else if Ascii.eqb c sep then end_field k StartField
  else push k InField c.
Definition step_in_field (sep : ascii) (k : tok) (c : ascii) : tok :=
  if Ascii.eqb c NL then end_line (end_field k StartField)
  else if Ascii.eqb c CR then end_field k EatCrnl
  else if Ascii.eqb c sep then end_field k StartField
  else push k InField c.
(** blank lines are skipped *)
Definition step_record (sep : ascii) (k : tok) (c : ascii) : tok :=
  if Ascii.eqb c NL then k
  else if Ascii.eqb c CR then goto k EatCrnlNop
  else if blank_but sep c then push k WhitespaceLine c
  else step_field sep k c.
Definition step (sep : ascii) (k : tok) (c : ascii) : tok :=
  match t_state k with
  | StartRecord => step_record sep k c
  | WhitespaceLine =>
      if Ascii.eqb c NL then mkTok StartRecord [] (t_row k) (t_rows k)
      else if Ascii.eqb c CR then mkTok EatCrnlNop [] (t_row k) (t_rows k)
      else if blank_but sep c then push k WhitespaceLine c
      (* the line is read again, as a field that starts with blanks *)
      else step_in_field sep k c
  | StartField => step_field sep k c
  | InField => step_in_field sep k c
  | InQuoted => if Ascii.eqb c QUOTE then goto k QuoteInQuoted else push k InQuoted c
  | QuoteInQuoted =>
      if Ascii.eqb c NL then end_line (end_field k StartField)
      else if Ascii.eqb c CR then end_field k EatCrnl
      else if Ascii.eqb c QUOTE then push k InQuoted c
      else if Ascii.eqb c sep then end_field k StartField
      else push k InField c
  | EatCrnl => if Ascii.eqb c NL then end_line k else step_record sep (end_line k) c
  | EatCrnlNop => if Ascii.eqb c NL then goto k StartRecord else step_record sep (goto k StartRecord) c
  end.
(** [parser_handle_eof]: [None] for a quote that is never closed *)
Definition at_eof (k : tok) : option (list (list str)) :=
  match t_state k with
  | StartRecord | WhitespaceLine | EatCrnlNop => Some (rev (t_rows k))
  | InQuoted => None
  | StartField | InField | QuoteInQuoted => Some (rev (t_rows (end_line (end_field k StartField))))
  | EatCrnl => Some (rev (t_rows (end_line k)))
  end.
Definition tokens (sep : ascii) (text : str) : option (list (list str)) :=
  at_eof (fold_left (step sep) text (mkTok StartRecord [] [] [])).
(** [end_line]: a line with more fields than the first is an error, missing fields are empty *)
Definition pad_to (n : nat) (row : list str) : list str := row ++ repeat [] (n - length row).
Inductive parsed A := Parsed (x : A) | ParserError | EmptyDataError.
Arguments Parsed {A}. Arguments ParserError {A}. Arguments EmptyDataError {A}.
Definition csv_rows (sep : ascii) (text : str) : parsed (nat * list (list str)) :=
  match tokens sep text with
  | None => ParserError
  | Some [] => EmptyDataError
  | Some (r :: rs) =>
      let n := length r in
      if existsb (fun x => (n <? length x)%nat) rs then ParserError else Parsed (n, r :: map (pad_to n) rs)
  end.
Definition column_texts (n : nat) (rows : list (list str)) : list (list str) :=
  map (fun i => map (fun row => nth i row []) rows) (seq 0 n).

(** ** Types of columns *)
(** pandas/_libs/parsers.pyx [STR_NA_VALUES] *)
Definition na_values : list str :=
  [$"-1.#IND"; $"1.#QNAN"; $"1.#IND"; $"-1.#QNAN"; $"#N/A N/A"; $"#N/A"; $"N/A"; $"n/a"; $"NA"; $"<NA>"; $"#NA";
   $"NULL"; $"null"; $"NaN"; $"-NaN"; $"nan"; $"-nan"; $"None"; []].
Definition is_na (s : str) : bool := str_in s na_values.
Definition c_space (c : ascii) : bool := let n := N_of_ascii c in ((9 <=? n) && (n <=? 13) || (n =? 32))%N.
(** tokenizer.c [str_to_int64], without its range: a sign and digits among white space *)
Definition int_value (s : str) : option Z :=
  let (neg, d) := take_sign (strip_by c_space s) in
  match d with
  | [] => None
  | _ => option_map (fun n => if neg then - Z.of_N n else Z.of_N n) (parse_digits 10 0 d)
  end.
Definition int64 (z : Z) : bool := in_range true 8 z.
Definition uint64 (z : Z) : bool := in_range false 8 z.
Definition trues : list str := [$"True"; $"TRUE"; $"true"].
Definition falses : list str := [$"False"; $"FALSE"; $"false"].
Definition missing : vcell := VNum (EF NaN).
Definition texts (l : list str) : coltype * list vcell := (CObject, map (fun s => if is_na s then missing else VText s) l).
(** a column that is not of numbers: parsers.pyx [_try_bool_flex], ops.pyx [maybe_convert_bool] *)
Definition not_numbers (l : list str) : coltype * list vcell :=
  if forallb (fun s => is_na s || str_in s trues || str_in s falses) l then
    if existsb is_na l then (CObject, map (fun s => if is_na s then missing else VBool (str_in s trues)) l)
    else (CBool, map (fun s => VBool (str_in s trues)) l)
  else texts l.
Definition ints (signed : bool) (l : list str) : coltype * list vcell :=
  (CT (DInt signed 8), map (fun s => VNum (EI (match int_value s with Some z => z | None => 0 end))) l).
Section Readers.
(** parsers.pyx [_try_double] (xstrtod) and lib.pyx [maybe_convert_numeric] (precise_xstrtod)
    of one text *)
Variables xstrtod precise_xstrtod : str -> option num.
Definition reals (real : str -> option num) (l : list str) : coltype * list vcell :=
  (CT DF64, map (fun s => if is_na s then missing else match real s with Some v => VNum (EF v) | None => missing end) l).
(** integers among which some are missing *)
Definition ints_as_reals (l : list str) : coltype * list vcell :=
  (CT DF64, map (fun s => if is_na s then missing else VNum (EF (fconv DF64 (inject_Z (match int_value s with Some z => z | None => 0 end))))) l).
(** parsers.pyx [_convert_tokens]: int64, uint64, float64, bool, object in this order *)
Inductive scan := AllInts | NotInt | TooLarge.
Fixpoint scan_int64 (l : list str) : scan :=
  match l with
  | [] => AllInts
  | s :: l' => if is_na s then scan_int64 l'
      else match int_value s with None => NotInt | Some z => if int64 z then scan_int64 l' else TooLarge end
  end.
(** [_try_uint64]: a text with a minus sign is taken for a negative integer *)
Definition minus (s : str) : bool := match strip_by c_space s with c :: _ => Ascii.eqb c "-"%char | [] => false end.
Fixpoint scan_uint64 (l : list str) : scan :=
  match l with
  | [] => AllInts
  | s :: l' => if is_na s || minus s then scan_uint64 l'
      else match int_value s with None => NotInt | Some z => if uint64 z then scan_uint64 l' else TooLarge end
  end.
Definition reals_or_not (real : str -> option num) (l : list str) : coltype * list vcell :=
  if forallb (fun s => is_na s || match real s with Some _ => true | None => false end) l then reals real l else not_numbers l.
Definition infer_csv (l : list str) : coltype * list vcell :=
  match scan_int64 l with
  | AllInts => if existsb is_na l then ints_as_reals l else ints true l
  | NotInt => reals_or_not xstrtod l
  | TooLarge =>
      match scan_uint64 l with
      | NotInt => reals_or_not xstrtod l
      | TooLarge => texts l
      | AllInts => if existsb (fun s => is_na s || minus s) l then texts l else ints false l
      end
  end.
(** lib.pyx [maybe_convert_numeric]: a number out of range, or integers above the signed
    ones together with negative or missing ones, leave the column as it is *)
Definition numeric (s : str) : bool := match int_value s with Some _ => true | None => match precise_xstrtod s with Some _ => true | None => false end end.
Definition ints_of (l : list str) : list Z := flat_map (fun s => if is_na s then [] else match int_value s with Some z => [z] | None => [] end) l.
Definition infer_fwf (l : list str) : coltype * list vcell :=
  if negb (forallb (fun s => is_na s || numeric s) l) then not_numbers l
  else
    let zs := ints_of l in
    let large := existsb (fun z => negb (int64 z)) zs in
    if existsb (fun z => negb (int64 z || uint64 z)) zs then texts l
    else if large && (existsb is_na l || existsb (fun z => z <? 0) zs) then (CObject, map VText l)
    else if existsb is_na l || existsb (fun s => match int_value s with None => true | Some _ => false end) l then
      reals (fun s => match precise_xstrtod s with Some v => Some v | None => option_map (fun z => fconv DF64 (inject_Z z)) (int_value s) end) l
    else ints (negb large) l.

(** ** table.py:137-158 [_read_as_delimited]: a table, one of the exceptions after which the
    fixed-width reader is tried, or another one *)
Inductive attempt := Table (t : list (coltype * list vcell)) | Fallback | Raised (e : exn).
(** Series.str.strip: AttributeError if no value is a text; what is not a text is missing *)
Definition strip_column (c : coltype * list vcell) : option (coltype * list vcell) :=
  match fst c with
  | CObject =>
      if existsb (fun v => match v with VText _ => true | _ => false end) (snd c)
      then Some (CObject, map (fun v => match v with VText s => VText (strip_chars PAD_CHARACTERS s) | _ => missing end) (snd c))
      else None
  | _ => Some c
  end.
Fixpoint strip_columns (l : list (coltype * list vcell)) : option (list (coltype * list vcell)) :=
  match l with
  | [] => Some []
  | c :: l' => match strip_column c, strip_columns l' with Some c, Some l' => Some (c :: l') | _, _ => None end
  end.
Definition is_placeholder (n : str) : bool := contains $"PLACEHOLDER" n.
Definition read_as_delimited (sep : ascii) (text : str) (names : list str) : attempt :=
  match csv_rows sep text with
  | ParserError => Fallback
  (* a ValueError *)
  | EmptyDataError => Raised ValueError
  | Parsed (n, rows) =>
      if negb (n + length (filter is_placeholder names) =? length names)%nat then Fallback
      else match strip_columns (map infer_csv (column_texts n rows)) with Some t => Table t | None => Fallback end
  end.

(** ** pandas.read_fwf: FixedWidthReader, and rows of blanks removed *)
Definition fwf_row (specs : list (Z * Z)) (line : str) : list str :=
  map (fun s : Z * Z => strip_chars ([CR; NL] ++ PAD_CHARACTERS) (zslice (fst s) (snd s) line)) specs.
Definition fwf_rows (specs : list (Z * Z)) (text : str) : parsed (nat * list (list str)) :=
  match filter (existsb (fun e => match strip e with [] => false | _ => true end)) (map (fwf_row specs) (file_lines text)) with
  | [] => EmptyDataError
  | rows => Parsed (length specs, rows)
  end.
(** FixedWidthReader.detect_colspecs of a text, of which nothing is said *)
Variable detect : str -> list (Z * Z).
Definition frame_of (p : parsed (nat * list (list str))) : res (list (coltype * list vcell)) :=
  match p with Parsed (n, rows) => Ok (map infer_fwf (column_texts n rows)) | _ => Err ValueError end.

(** ** The format definition of a text table: queries.py:570-610 *)
(** what is known of the positions of the columns *)
Inductive positions := NoBytes | NoStarts | Positions (specs : list (Z * Z)).
Record textfmt := mkTF { tf_rows : list orow; tf_tail : option (Z * Z); tf_at : positions }.
Definition tf_names (f : textfmt) : list str :=
  map (fun o => r_name (o_row o)) (tf_rows f) ++ match tf_tail f with Some _ => [tail_name] | None => [] end.
Definition has_field (k : str) (fields : list field) : bool := existsb (fun f => dict_has f k) fields.
Definition ascii_typed (f : field) : bool := match dict_get f $"DATA_TYPE" with Some (PStr s) => contains $"ASCII" s | _ => false end.
(** [None]: the table is not of text *)
Definition parse_text_structure (load : pv -> res (list (str * pv))) (bits : field -> multidict -> res field)
    (fuel : nat) (block : multidict) (name : str) : res (option textfmt) :=
  do r <- read_format_block load bits fuel block name;
  let fields := reindexed (fst r) in
  let text := existsb ascii_typed fields || looks_like_ascii block name in
  (* positions that are not used are filled in *)
  if has_field $"DATA_TYPE" fields && negb (has_field $"BYTES" fields) && text then
    do rows <- rmap (fun f => row_of_field (dict_set (dict_set f $"START_BYTE" (PInt 1)) $"BYTES" (PInt 0))) fields;
    Ok (Some (mkTF (map (fun r => mkO r 0 1) rows) None NoBytes))
  else if has_field $"START_BYTE" fields then
    do info <- row_info block;
    do rows <- rmap row_of_field fields;
    do t <- compute_offsets info rows;
    (* fmtdef["DATA_TYPE"] *)
    if negb (has_field $"DATA_TYPE" fields) && match snd t with Some _ => false | None => true end then Err KeyError
    else if negb text then Ok None
    else Ok (Some (mkTF (fst t) (snd t) (Positions (colspecs (fst t) ++ match snd t with Some (off, n) => [(off, off + n)] | None => [] end))))
  else
    do rows <- rmap (fun f => row_of_field (dict_set (dict_set f $"START_BYTE" (PInt 1)) $"BYTES" (PInt 0))) fields;
    if negb (has_field $"DATA_TYPE" fields) then Err KeyError
    else if negb text then Ok None
    else Ok (Some (mkTF (map (fun r => mkO r 0 1) rows) None NoStarts)).

(** ** table.py:221-246 [_read_table_from_stringio] *)
Definition read_table_from_text (f : textfmt) (block : multidict) (text : str) : res (list (coltype * list vcell)) :=
  do sep <- check_explicit_delimiter block;
  match read_as_delimited (hd ","%char sep) text (tf_names f) with
  | Table t => Ok t
  | Raised e => Err e
  | Fallback =>
      match tf_at f with
      | NoBytes => frame_of (fwf_rows (detect text) text)
      (* compute_offsets: no START_BYTE *)
      | NoStarts => Err KeyError
      | Positions specs =>
          match fwf_rows specs text with
          | Parsed p => frame_of (Parsed p)
          | _ => frame_of (fwf_rows (detect text) text)
          end
      end
  end.
(** ** table.py:72-110 [read_table] of a text table, and 248-273 [_interpret_as_ascii] *)
Definition name_columns (f : textfmt) (t : list (coltype * list vcell)) : res (list framecol) :=
  let names := tf_names f in
  let names := if (length t =? length names)%nat then names else filter (fun n => negb (startswith $"PLACEHOLDER" n)) names in
  if (length t =? length names)%nat then Ok (map (fun x : str * (coltype * list vcell) => mkFC (fst x) (fst (snd x)) (snd (snd x))) (combine names t))
  else Err ValueError.
Definition read_text_table (load : pv -> res (list (str * pv))) (bits : field -> multidict -> res field) (fuel : nat)
    (file : list ascii) (block : multidict) (name : str) (p : position) : res (list framecol) :=
  do f <- parse_text_structure load bits fuel block name;
  match f with
  | None => Err NotImplementedError_
  | Some f =>
      do text <- ascii_text file p;
      do t <- read_table_from_text f block text;
      do table <- name_columns f t;
      rmap (scale_column (tf_rows f) (tf_tail f)) (drop_placeholders table)
  end.
End Readers.
