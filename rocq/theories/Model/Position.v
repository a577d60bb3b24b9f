(** Model of locating objects in files: pdr/loaders/queries.py:329-345, 394-524,
    902-928 and pdr/loaders/_helpers.py:15-148, head_file of pdr/utils.py:40-56 and
    the text selection of pdr/loaders/table.py:250-273.  Line numbers cite
    queries.py unless said.  Numbers in labels are integers: arithmetic on
    anything but integers and strings is a TypeError (floats are not modelled). *)
From Verif.Base Require Import Py Val.
From Verif.Model Require Import Pvl.
Open Scope Z_scope.

Notation block := (option multidict) (only parsing).
(** a * b, a + b, a - 1, a < 0 *)
Definition repeat_str (s : str) (n : Z) : str := List.concat (repeat s (Z.to_nat n)).
Definition py_mul (a b : pv) : res pv :=
  match a, b with
  | PInt x, PInt y => Ok (PInt (x * y))
  | PStr s, PInt n | PInt n, PStr s => Ok (PStr (repeat_str s n))
  | _, _ => Err TypeError
  end.
Definition py_add (a b : pv) : res pv :=
  match a, b with PInt x, PInt y => Ok (PInt (x + y)) | PStr x, PStr y => Ok (PStr (x ++ y)) | _, _ => Err TypeError end.
Definition py_sub1 (a : pv) : res Z := match a with PInt x => Ok (x - 1) | _ => Err TypeError end.
Definition is_none_or_empty (v : pv) : bool := match v with PNone | PStr [] => true | _ => false end.
Definition item_ (m : multidict) (k : str) : res pv := match md_get m k with Some v => Ok v | None => Err KeyError end.
(** v == "text" *)
Definition is_str (s : str) (v : pv) : bool := match v with PStr t => str_eqb t s | _ => false end.
Definition get_is (m : multidict) (k s : str) : bool := match md_get m k with Some v => is_str s v | None => false end.

(** _helpers.py:31-48 [quantity_start_byte]; None is [Ok PNone] *)
Definition quantity_start_byte (d : multidict) (record_bytes : pv) : res pv :=
  do units <- item_ d $"units";
  if is_str $"BYTES" units then do v <- item_ d $"value"; do z <- py_sub1 v; Ok (PInt z)
  else match record_bytes with
       | PNone => Ok PNone
       | _ => do v <- item_ d $"value"; do z <- py_sub1 v; py_mul record_bytes (PInt (Z.max z 0))
       end.
(** _helpers.py:51-67 [count_from_bottom_of_file], given the size of the file *)
Definition count_from_bottom (size : Z) (rows row_bytes : pv) : res Z :=
  do t <- py_mul rows row_bytes;
  match t with PInt t => Ok (size - t) | _ => Err TypeError end.
(** target[-1] of a sequence *)
Definition last_ (l : list pv) : res pv := match rev l with [] => Err IndexError | x :: _ => Ok x end.
(** queries.py:394-428 [data_start_byte] *)
Definition data_start_byte (ident_record_bytes : pv) (b : block) (target : pv) (file_size : Z) : res Z :=
  let record_bytes := match b with
                      | Some m => match md_get m $"RECORD_BYTES" with Some v => v | None => ident_record_bytes end
                      | None => ident_record_bytes
                      end in
  do target <- match target with PTuple l => last_ l | t => Ok t end;
  do start <- match target with
              | PInt t =>
                  if t =? 1 then Ok (PInt 0)
                  else if negb (is_none_or_empty record_bytes) then py_mul record_bytes (PInt (Z.max (t - 1) 0))
                  else match b with
                       | None => Err AttributeError
                       | Some m =>
                         if md_has m $"ROWS" then
                           do rows <- item_ m $"ROWS"; do rb <- item_ m $"ROW_BYTES";
                           do z <- count_from_bottom file_size rows rb; Ok (PInt (Z.max 0 z))
                         else Ok PNone
                       end
              | PDict d | PMulti d => quantity_start_byte d record_bytes
              | PStr _ => Ok (PInt 0)
              | _ => Ok PNone
              end;
  match start with
  | PNone => Err ValueError
  | PInt z => if z <? 0 then Err ValueError else Ok z
  | _ => Err TypeError
  end.
(** Simplification: a Python MultiDict is not an instance of dict, so a PMulti
    target would raise ValueError; parse_pvl only makes quantities PDict. *)

(** queries.py:431-443 [_extract_table_records] *)
Definition extract_table_records (m : multidict) : pv :=
  match md_get m $"RECORDS" with
  | Some v => v
  | None => match md_get m $"ROWS" with Some v => v | None => PNone end
  end.
(** queries.py:446-468 [_table_row_position]: (length, start).
    target[1] of a string is its second character. *)
Definition table_row_position (n_records target : pv) : res (pv * Z) :=
  do t1 <- match target with
           | PTuple l => match nth_error l 1 with Some v => Ok v | None => Err IndexError end
           | PStr s => match nth_error s 1 with Some c => Ok (PStr [c]) | None => Err IndexError end
           | PDict _ | PMulti _ => Err KeyError
           | _ => Err TypeError
           end;
  match t1 with
  | PDict d => do v <- item_ d $"value"; do z <- py_sub1 v; Ok (n_records, z)
  | PInt z => Ok (n_records, z - 1)
  | _ => Ok (n_records, 0)
  end.
(** queries.py:471-494 [_table_length] *)
Definition table_length (b : block) (ident_record_bytes n_records : pv) : res pv :=
  match b with
  | None => Ok PNone
  | Some m =>
    if md_has m $"BYTES" then item_ m $"BYTES"
    else match n_records with
         | PNone => Ok PNone
         | _ =>
           do rl <- (if md_has m $"RECORD_BYTES" then item_ m $"RECORD_BYTES"
                     else if md_has m $"ROW_BYTES" then
                       do r <- item_ m $"ROW_BYTES";
                       py_add r (match md_get m $"ROW_SUFFIX_BYTES" with Some v => v | None => PInt 0 end)
                     else Ok ident_record_bytes);
           match rl with PNone => Ok PNone | _ => py_mul rl n_records end
         end
  end.
(** _helpers.py:70-106 [_check_delimiter_stream] *)
Definition check_delimiter_stream (ident_record_bytes ident_record_type : pv) (name : str) (target : pv) (b : block) : res bool :=
  let in_bytes d := get_is d $"units" $"BYTES" in
  do last <- match target with PTuple l => last_ l | _ => Ok PNone end;
  if match target with PDict d => in_bytes d | _ => false end then Ok false
  else if match last with PDict d => in_bytes d | _ => false end then Ok false
  else match b with
       | None => Err TypeError
       | Some m =>
         if md_has m $"BYTES" then Ok false
         else if negb (is_none_or_empty ident_record_bytes) then Ok false
         else if negb (is_str $"STREAM" ident_record_type) then Ok false
         else Ok (existsb (fun l => contains l name) [$"ASCII"; $"SPREADSHEET"; $"HEADER"])
       end.
Record position := mkPos { p_start : Z; p_length : pv; p_as_rows : bool }.
(** queries.py:497-524 [table_position] *)
Definition table_position (ident_record_bytes ident_record_type : pv) (b : block) (target : pv) (name : str) (start_byte : Z)
    : res position :=
  if start_byte <? 0 then Err ValueError
  else
    let n_records := match b with Some m => extract_table_records m | None => PNone end in
    do as_rows <- check_delimiter_stream ident_record_bytes ident_record_type name target b;
    do ls <- (if as_rows : bool then table_row_position n_records target
              else do l <- table_length b ident_record_bytes n_records; Ok (l, start_byte));
    let '(length, start) := ls in
    if match length with PNone => true | v => is_str $"UNK" v end && contains $"HEADER" name then Err NotImplementedError_
    else Ok (mkPos start length as_rows).

(** utils.py:40-56 [head_file] (tail=False): the bytes read from an open file *)
Definition head_file (file : list ascii) (nbytes : pv) (offset : Z) : res (list ascii) :=
  if offset <? 0 then Err ValueError
  else
    let tail := skipn (Z.to_nat offset) file in
    match nbytes with
    | PNone => Ok tail
    | PInt n => Ok (if n <? 0 then tail else firstn (Z.to_nat n) tail)
    | _ => Err TypeError
    end.
(** iterating over a binary file: lines with their final LF *)
Fixpoint file_lines (s : list ascii) : list (list ascii) :=
  match s with
  | [] => []
  | c :: s' =>
    if Ascii.eqb c NL then [c] :: file_lines s'
    else match file_lines s' with
         | [] => [[c]]
         | l :: ls => (c :: l) :: ls
         end
  end.
(** table.py:250-273: the text handed to the parsers (bytes.decode is not modelled).
    [range] of a non-integer is a TypeError, running out of lines StopIteration,
    shown here as EOFError. *)
Definition ascii_text (file : list ascii) (p : position) : res (list ascii) :=
  if p_as_rows p then
    let lines := file_lines file in
    let n := Z.to_nat (p_start p) in
    if (0 <? p_start p) && (List.length lines <? n)%nat then Err EOFError_
    else
      let lines := skipn n lines in
      match p_length p with
      | PNone | PStr [] => Ok (join [CR; NL] lines)
      | PInt k => if (List.length lines <? Z.to_nat k)%nat then Err EOFError_ else Ok (join [CR; NL] (firstn (Z.to_nat k) lines))
      | _ => Err TypeError
      end
  else head_file file (p_length p) (p_start p).

(** _helpers.py:109-126 [check_explicit_delimiter] *)
Definition TAB : ascii := ascii_of_nat 9.
Definition check_explicit_delimiter (b : multidict) : res str :=
  match md_get b $"FIELD_DELIMITER" with
  | None => Ok $","
  | Some (PStr v) =>
    match find (fun kv => str_eqb (fst kv) v)
      [($"COMMA", $","); ($"VERTICAL_BAR", $"|"); ($"SEMICOLON", $";"); ($"TAB", [TAB])] with
    | Some kv => Ok (snd kv) | None => Err KeyError end
  | Some (PDict _ | PMulti _ | PSet _) => Err TypeError
  | Some _ => Err KeyError
  end.

(** _helpers.py:15-19: re.sub("\r\n?", "\n", s) *)
Fixpoint cle (s : str) : str :=
  match s with
  | [] => []
  | c :: s' =>
    if Ascii.eqb c CR then
      match s' with
      | d :: s'' => if Ascii.eqb d NL then NL :: cle s'' else NL :: cle s'
      | [] => [NL]
      end
    else c :: cle s'
  end.
(** _helpers.py:129-144 [canonicalize_line_endings]; lists are tuples here *)
Definition canonicalize_line_endings (v : pv) : pv :=
  match v with
  | PStr s => PStr (cle s)
  | PTuple l => PTuple (map (fun x => match x with PStr s => PStr (cle s) | y => y end) l)
  | v => v
  end.

(** queries.py:329-345 [get_target] (no interleaved objects); [metaget] returns PNone for absent keys *)
Definition get_target (metaget : str -> pv) (name : str) : pv :=
  match metaget name with
  | PNone | PDict _ | PMulti _ => metaget (pointerize name)
  | v => v
  end.
(** queries.py:902-928 [standalone_start_byte]: the start byte it reports; [metablock] is PNone or a mapping *)
Definition start_byte_of (metaget metablock : str -> pv) (ident_record_bytes : pv) (file_size : Z) (name : str) : res Z :=
  data_start_byte ident_record_bytes (match metablock name with PMulti m | PDict m => Some m | _ => None end)
    (get_target metaget name) file_size.
Definition standalone_start_byte (metaget metablock : str -> pv) (ident_record_bytes : pv) (file_size : Z) (object_name : str) : res Z :=
  start_byte_of metaget metablock ident_record_bytes file_size $"IMAGE".
