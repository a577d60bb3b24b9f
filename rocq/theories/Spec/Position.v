(** Specification for C15, C16, C49 and C50: where a label says an object is. *)
From Verif.Base Require Export Py Val.
Open Scope Z_scope.
Definition holds (m : multidict) (k : str) (v : pv) : Prop := md_get m k = Some v.
Definition lacks (m : multidict) (k : str) : Prop := md_get m k = None.
Definition blank (v : pv) : Prop := v = PNone \/ v = PStr [].

(** The size of a record: the block's RECORD_BYTES if the block has one, else the product's *)
Definition record_size (product : pv) (b : option multidict) (v : pv) : Prop :=
  match b with
  | Some m => holds m $"RECORD_BYTES" v \/ (lacks m $"RECORD_BYTES" /\ v = product)
  | None => v = product
  end.
(** PDS3 Standards Reference, chapter 14: what a pointer's value means, as a
    zero-based byte.  Records and bytes count from 1. *)
Inductive starts_at (product : pv) (b : option multidict) (size : Z) : pv -> Z -> Prop :=
| at_first : starts_at product b size (PInt 1) 0
| at_record n r : 1 < n -> 0 <= r -> record_size product b (PInt r) ->
    starts_at product b size (PInt n) ((n - 1) * r)
| at_record_below n r : n < 1 -> record_size product b (PInt r) -> starts_at product b size (PInt n) 0
(* records of unknown size: the object is the last ROWS rows of the file *)
| at_bottom n m v rows width : n <> 1 -> record_size product b v -> blank v -> b = Some m ->
    holds m $"ROWS" (PInt rows) -> holds m $"ROW_BYTES" (PInt width) ->
    starts_at product b size (PInt n) (Z.max 0 (size - rows * width))
| at_byte d n : 1 <= n -> holds d $"units" (PStr $"BYTES") -> holds d $"value" (PInt n) ->
    starts_at product b size (PDict d) (n - 1)
| at_unit d u n r : u <> PStr $"BYTES" -> holds d $"units" u -> holds d $"value" (PInt n) ->
    record_size product b (PInt r) -> 0 <= Z.max 0 (n - 1) * r ->
    starts_at product b size (PDict d) (Z.max 0 (n - 1) * r)
| at_file s : starts_at product b size (PStr s) 0
| at_in_file front t z : (forall l, t <> PTuple l) -> starts_at product b size t z ->
    starts_at product b size (PTuple (front ++ [t])) z.

(** Number of records of a table, and its length in bytes ([None]: not said) *)
Inductive says_records (m : multidict) : option Z -> Prop :=
| by_records n : holds m $"RECORDS" (PInt n) -> says_records m (Some n)
| by_rows n : lacks m $"RECORDS" -> holds m $"ROWS" (PInt n) -> says_records m (Some n)
| no_records : lacks m $"RECORDS" -> lacks m $"ROWS" -> says_records m None.
Inductive says_width (product : pv) (m : multidict) : option Z -> Prop :=
| by_record_bytes r : holds m $"RECORD_BYTES" (PInt r) -> says_width product m (Some r)
| by_row_bytes r : lacks m $"RECORD_BYTES" -> holds m $"ROW_BYTES" (PInt r) -> lacks m $"ROW_SUFFIX_BYTES" ->
    says_width product m (Some r)
| by_row_and_suffix r s : lacks m $"RECORD_BYTES" -> holds m $"ROW_BYTES" (PInt r) -> holds m $"ROW_SUFFIX_BYTES" (PInt s) ->
    says_width product m (Some (r + s))
| by_product r : lacks m $"RECORD_BYTES" -> lacks m $"ROW_BYTES" -> product = PInt r -> says_width product m (Some r)
| no_width : lacks m $"RECORD_BYTES" -> lacks m $"ROW_BYTES" -> product = PNone -> says_width product m None.
Inductive says_length (product : pv) (m : multidict) : option Z -> Prop :=
| by_bytes n : holds m $"BYTES" (PInt n) -> says_length product m (Some n)
| by_product_of n w : lacks m $"BYTES" -> says_records m (Some n) -> says_width product m (Some w) ->
    says_length product m (Some (n * w))
| open_no_records : lacks m $"BYTES" -> says_records m None -> says_length product m None
| open_no_width n : lacks m $"BYTES" -> says_records m (Some n) -> says_width product m None -> says_length product m None.
Definition as_value (n : option Z) : pv := match n with Some z => PInt z | None => PNone end.

(** C50: the documented signs of a delimited table without row lengths *)
Definition in_bytes (t : pv) : Prop := exists d, t = PDict d /\ holds d $"units" (PStr $"BYTES").
Definition last_is (P : pv -> Prop) (t : pv) : Prop := exists front x, t = PTuple (front ++ [x]) /\ P x.
Definition mentions (name word : str) : Prop := exists a b, name = a ++ word ++ b.
Definition stream_table (product_bytes product_type : pv) (name : str) (target : pv) (m : multidict) : Prop :=
  ~ in_bytes target /\ ~ last_is in_bytes target /\ lacks m $"BYTES" /\ blank product_bytes /\
  product_type = PStr $"STREAM" /\
  (mentions name $"ASCII" \/ mentions name $"SPREADSHEET" \/ mentions name $"HEADER").
Definition delimiters : list (str * ascii) :=
  [($"COMMA", ","%char); ($"VERTICAL_BAR", "|"%char); ($"SEMICOLON", ";"%char); ($"TAB", "009"%char)].

(** C49: reading a text as a list of lines, whatever their ending (CR LF, CR or LF) *)
Inductive reads_as : str -> list str -> Prop :=
| reads_last l : ~ In CR l -> ~ In NL l -> reads_as l [l]
| reads_lf l rest ls : ~ In CR l -> ~ In NL l -> reads_as rest ls -> reads_as (l ++ [NL] ++ rest) (l :: ls)
| reads_crlf l rest ls : ~ In CR l -> ~ In NL l -> reads_as rest ls -> reads_as (l ++ [CR; NL] ++ rest) (l :: ls)
| reads_cr l rest ls : ~ In CR l -> ~ In NL l -> (forall r, rest <> NL :: r) -> reads_as rest ls ->
    reads_as (l ++ [CR] ++ rest) (l :: ls).
