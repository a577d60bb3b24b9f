(** What the columns of a text table show. *)
From Coq Require Import QArith.
From Verif.Base Require Import Py Val Numpy.
From Verif.Model Require Import Types Scaling Pds4Types Table Position TableValues.
From Verif.Spec Require Import Types Pds4Values Table TableValues.
From Verif.Spec Require Pvl Scaling.
Open Scope Z_scope.

(** ** Lines of fields *)
Definition quote : ascii := """"%char.
Definition tab : ascii := "009"%char.
(** characters that may stand in a field without quotes *)
Definition in_line (c : ascii) : Prop := c <> NL /\ c <> CR.
Definition in_field (sep c : ascii) : Prop := c <> sep /\ in_line c.
Definition no_quote_first (s : str) : Prop := forall s', s <> quote :: s'.
(** a quote within quotes is written twice *)
Definition doubled (f : str) : str := flat_map (fun c => if Ascii.eqb c quote then [quote; quote] else [c]) f.
(** how a field may be written: as it is, or in quotes, perhaps with something after them *)
Inductive written_field (sep : ascii) : str -> str -> Prop :=
| plain_field f : Forall (in_field sep) f -> no_quote_first f -> written_field sep f f
| quoted_field f g : Forall in_line f -> Forall (in_field sep) g -> no_quote_first g ->
    written_field sep (f ++ g) ([quote] ++ doubled f ++ [quote] ++ g).
Definition blank_in (sep c : ascii) : Prop := (c = " "%char \/ c = tab) /\ c <> sep.
Inductive written_row (sep : ascii) : list str -> str -> Prop :=
| a_row fields ws : fields <> [] -> Forall2 (written_field sep) fields ws -> ~ Forall (blank_in sep) (join [sep] ws) ->
    written_row sep fields (join [sep] ws).
(** lines with their ends; blank ones are not rows *)
Definition line_end (e : str) : Prop := e = [NL] \/ e = [CR; NL].
Inductive lines_hold (sep : ascii) : list str -> list (list str) -> Prop :=
| no_lines : lines_hold sep [] []
| blank_line w e lines rows : Forall (blank_in sep) w -> line_end e -> lines_hold sep lines rows -> lines_hold sep ((w ++ e) :: lines) rows
| row_line w e row lines rows : written_row sep row w -> line_end e -> lines_hold sep lines rows -> lines_hold sep ((w ++ e) :: lines) (row :: rows)
| last_blank w : Forall (blank_in sep) w -> lines_hold sep [w] []
| last_row w row : written_row sep row w -> lines_hold sep [w] [row].
(** the separator the label names *)
Definition separator (m : multidict) (sep : ascii) : Prop :=
  (md_get m $"FIELD_DELIMITER" = None /\ sep = ","%char) \/
  exists w, md_get m $"FIELD_DELIMITER" = Some (PStr w) /\
    In (w, sep) [($"COMMA", ","%char); ($"VERTICAL_BAR", "|"%char); ($"SEMICOLON", ";"%char); ($"TAB", tab)].
(** field [i] of a row; fields a row does not have are empty *)
Definition field_at (i : nat) (row : list str) : str := nth i row [].

(** ** Where the lines of a table are: at these bytes of the file, or at these of its lines *)
Definition complete_line (l : str) : Prop := exists w, l = w ++ [NL] /\ ~ In NL w.
Definition file_has_lines (file : list ascii) (ls : list str) : Prop :=
  file = concat ls /\ forall a l b, ls = a ++ l :: b -> complete_line l \/ (b = [] /\ l <> [] /\ ~ In NL l).
Inductive lines_at (file : list ascii) (p : position) (lines : list str) : Prop :=
| in_bytes pre post : p_as_rows p = false -> file = pre ++ concat lines ++ post -> p_start p = Z.of_nat (length pre) ->
    p_length p = PInt (Z.of_nat (length (concat lines))) \/ (p_length p = PNone /\ post = []) -> lines_at file p lines
| in_lines pre post : p_as_rows p = true -> file_has_lines file (pre ++ lines ++ post) -> p_start p = Z.of_nat (length pre) ->
    p_length p = PInt (Z.of_nat (length lines)) \/ (post = [] /\ (p_length p = PNone \/ p_length p = PStr [])) -> lines_at file p lines.

(** ** What texts show *)
Definition padding (c : ascii) : Prop := In c [" "%char; tab; quote; ","%char].
(** without the padding at its ends *)
Definition trimmed (pad : ascii -> Prop) (s t : str) : Prop :=
  exists a b, s = a ++ t ++ b /\ Forall pad a /\ Forall pad b /\
    (t = [] \/ exists c u d v, t = c :: u /\ t = v ++ [d] /\ ~ pad c /\ ~ pad d).
(** words for missing values *)
Definition missing_words : list str :=
  [[]; $"NA"; $"N/A"; $"n/a"; $"NULL"; $"null"; $"None"; $"NaN"; $"nan"; $"-NaN"; $"-nan"; $"<NA>"; $"#NA"; $"#N/A"; $"#N/A N/A";
   $"1.#IND"; $"-1.#IND"; $"1.#QNAN"; $"-1.#QNAN"].
Definition says_missing (s : str) : Prop := In s missing_words.
(** an integer: perhaps a sign, and decimal digits, with white space around *)
Definition says_int (s : str) (z : Z) : Prop :=
  exists core neg sg d n, padded s core /\ core = sg ++ d /\ sign_text neg sg /\ Pvl.numeral_value 10 d = Some n /\
    z = if neg : bool then - Z.of_N n else Z.of_N n.
Definition says_truth (s : str) (b : bool) : Prop := In s (if b then [$"True"; $"TRUE"; $"true"] else [$"False"; $"FALSE"; $"false"]).
Definition cell_missing : vcell := VNum (EF NaN).
Section Shows.
(** decimal numbers as pandas reads them *)
Variable real : str -> option num.
(** the number in floating point of a text with this integer *)
Variable rounded : str -> Z -> num -> Prop.
(** what is left of a text *)
Variable kept : str -> str -> Prop.
Definition says_int64 (s : str) : Prop := exists z, says_int s z /\ Scaling.int_holds true 8 z.
Definition says_number (s : str) : Prop := says_int64 s \/ exists v, real s = Some v.
(** what a column of these texts becomes, of which type *)
Record shows (cells : list str) (ty : coltype) (values : list vcell) : Prop := {
  (* integers *)
  if_ints : Forall says_int64 cells ->
    ty = CT (DInt true 8) /\ Forall2 (fun s v => exists z, says_int s z /\ v = VNum (EI z)) cells values;
  (* integers that need all 64 bits *)
  if_large_ints : Forall (fun s => exists z, says_int s z /\ Scaling.int_holds false 8 z /\ ~ In "-"%char s) cells ->
    ~ Forall says_int64 cells ->
    ty = CT (DInt false 8) /\ Forall2 (fun s v => exists z, says_int s z /\ v = VNum (EI z)) cells values;
  (* integers of which some are missing *)
  if_some_ints : Forall (fun s => says_missing s \/ says_int64 s) cells -> Exists says_missing cells ->
    ty = CT DF64 /\ Forall2 (fun s v => (says_missing s /\ v = cell_missing) \/
      (~ says_missing s /\ exists z r, says_int s z /\ rounded s z r /\ v = VNum (EF r))) cells values;
  (* numbers, not all integers *)
  if_reals : Forall (fun s => says_missing s \/ ((says_int64 s \/ ~ exists z, says_int s z) /\ exists v, real s = Some v)) cells ->
    Exists (fun s => ~ says_missing s /\ ~ exists z, says_int s z) cells ->
    ty = CT DF64 /\ Forall2 (fun s v => (says_missing s /\ v = cell_missing) \/
      (~ says_missing s /\ exists r, real s = Some r /\ v = VNum (EF r))) cells values;
  (* true and false *)
  if_truths : cells <> [] -> Forall (fun s => exists b, says_truth s b /\ real s = None) cells ->
    ty = CBool /\ Forall2 (fun s v => exists b, says_truth s b /\ v = VBool b) cells values;
  (* anything else is text *)
  if_texts : Exists (fun s => ~ says_missing s /\ (~ exists z, says_int s z) /\ real s = None /\ forall b, ~ says_truth s b) cells ->
    Forall (fun s => forall z, says_int s z -> Scaling.int_holds true 8 z) cells ->
    ty = CObject /\ Forall2 (fun s v => (says_missing s /\ v = cell_missing) \/
      (~ says_missing s /\ exists t, kept s t /\ v = VText t)) cells values
}.
End Shows.
(** read by separators: integers are rounded to the nearest double, texts trimmed *)
Definition shows_fields (real : str -> option num) : list str -> coltype -> list vcell -> Prop :=
  shows real (fun _ z r => double_for (inject_Z z) r) (trimmed padding).
(** read by positions: the cells are trimmed already *)
Definition shows_cells (real : str -> option num) : list str -> coltype -> list vcell -> Prop :=
  shows real (fun s z r => real s = Some r \/ (real s = None /\ double_for (inject_Z z) r)) eq.

(** true and false and nothing else, but some are missing *)
Definition truths_missing (cells : list str) : Prop :=
  Forall (fun s => says_missing s \/ exists b, says_truth s b) cells /\ Exists says_missing cells /\ ~ Forall says_missing cells.

(** ** Text tables *)
Definition text_block (m : multidict) (name : str) (types : list (option str)) : Prop :=
  (exists ty, In (Some ty) types /\ mentions $"ASCII" ty) \/
  ((exists ty, In (Some ty) types) /\
   (mentions $"SPREADSHEET" name \/ mentions $"ASCII" name \/ md_get m $"INTERCHANGE_FORMAT" = Some (PStr $"ASCII"))).
(** the rows can be read by separators as a table of [n] columns *)
Definition delimited (n : nat) (rows : list (list str)) : Prop :=
  (exists r rs, rows = r :: rs /\ length r = n /\ Forall (fun x => (length x <= n)%nat) rs) /\
  forall i, (i < n)%nat -> ~ truths_missing (map (field_at i) rows).
(** they can not *)
Definition not_delimited (n : nat) (rows : list (list str)) : Prop :=
  exists r rs, rows = r :: rs /\
    (length r <> n \/ Exists (fun x => (length r < length x)%nat) rs \/ exists i, (i < n)%nat /\ truths_missing (map (field_at i) rows)).

(** ** Fields without positions, as in SPREADSHEET objects *)
Definition says_stream_column (m : multidict) (c : column) : Prop :=
  holds m $"NAME" (PStr (c_name c)) /\ lacks m $"START_BYTE" /\
  md_get m $"DATA_TYPE" = option_map PStr (c_type c) /\ md_get m $"SCALING_FACTOR" = c_scale c /\ md_get m $"OFFSET" = c_shift c /\
  lacks m $"^STRUCTURE" /\ lacks m $"BIT_COLUMN" /\ lacks m $"BIT_ELEMENT" /\
  match c_items c with
  | None => lacks m $"ITEMS" /\ lacks m $"ITEM_BYTES" /\ lacks m $"ITEM_OFFSET"
  | Some (n, w, d) => 1 <= n /\ holds m $"ITEMS" (PInt n) /\ holds m $"ITEM_BYTES" (PInt w) /\ may_hold m $"ITEM_OFFSET" d
  end.
Definition says_stream_item (k : str) (v : pv) (c : column) : Prop :=
  In k [$"COLUMN"; $"FIELD"; $"ELEMENT"] /\ exists m, v = PMulti m /\ says_stream_column m c.
Definition says_stream (m : multidict) (fields : list column) : Prop := parts says_stream_item m fields /\ lacks m $"REPETITIONS".
(** each field once for each of its items *)
Definition stream_columns (fields : list column) : list column :=
  flat_map (fun c => repeat c (match c_items c with Some (n, _, _) => Z.to_nat n | None => 1%nat end)) fields.

(** ** Cells at fixed positions *)
Definition cell_padding (c : ascii) : Prop := padding c \/ c = CR \/ c = NL.
Definition space_char (c : ascii) : Prop := (9 <= nat_of_ascii c <= 13)%nat \/ (28 <= nat_of_ascii c <= 32)%nat.
Definition blank_cell (s : str) : Prop := exists t, trimmed cell_padding s t /\ Forall space_char t.
(** rows without anything in their cells are left out *)
Inductive kept_lines (spans : list (Z * Z)) : list str -> list str -> Prop :=
| kept_none : kept_lines spans [] []
| kept_not l ls ks : Forall (fun c => blank_cell (cell_in l c)) spans -> kept_lines spans ls ks -> kept_lines spans (l :: ls) ks
| kept_line l ls ks : Exists (fun c => ~ blank_cell (cell_in l c)) spans -> kept_lines spans ls ks -> kept_lines spans (l :: ls) (l :: ks).
(** how much of a row follows its last column *)
Definition row_rest (c : column) (prefix suffix bytes : option Z) : Z :=
  match bytes with Some n => n - (opt0 prefix + column_end c) | None => 0 end + opt0 suffix.
(** the places of the columns, and of what follows the last one *)
Definition row_spans (cols : list (column * (Z * Z))) (last_end rest : Z) : list (Z * Z) :=
  map snd cols ++ (if 0 <? rest then [(last_end, rest)] else []).

(** ** Factors and offsets *)
(** the type of a column of numbers *)
Inductive numbers (real : str -> option num) (cells : list str) : dt -> Prop :=
| all_ints : Forall says_int64 cells -> numbers real cells (DInt true 8)
| some_ints : Forall (fun s => says_missing s \/ says_int64 s) cells -> Exists says_missing cells -> numbers real cells DF64
| some_reals : Forall (fun s => says_missing s \/ ((says_int64 s \/ ~ exists z, says_int s z) /\ exists v, real s = Some v)) cells ->
    Exists (fun s => ~ says_missing s /\ ~ exists z, says_int s z) cells -> numbers real cells DF64.
Definition may_scale_text (real : str -> option num) (scales shifts : list (option pv)) (c : column) (cells : list str) : Prop :=
  forall a b, amount scales (c_scale c) a -> amount shifts (c_shift c) b ->
    (a = None /\ b = None) \/
    exists d, numbers real cells d /\ fits d a /\ fits (match a with Some c => result_type d c | None => d end) b.
(** a column of the frame is what its texts show, numbers times the factor and plus the offset *)
Definition column_from (shown : list str -> coltype -> list vcell -> Prop) (scales shifts : list (option pv)) (c : column)
    (cells : list str) (col : framecol) : Prop :=
  exists ty raw a b, shown cells ty raw /\ amount scales (c_scale c) a /\ amount shifts (c_shift c) b /\
    ((a = None /\ b = None /\ k_type col = ty /\ k_values col = raw) \/
     exists d d1 mid d2, ty = CT d /\ operated OMul a (d, raw) (d1, mid) /\ operated OAdd b (d1, mid) (d2, k_values col) /\ k_type col = CT d2).
