(** Specification for C25, C26 and C51: what a table's label says about its columns. *)
From Coq Require Export Sorting.Sorted.
From Verif.Base Require Export Py Val.
Open Scope Z_scope.

(** ** C51 *)
(** keywords that point to a format file: ^STRUCTURE, ^XYZ_STRUCTURE *)
Definition word_char (c : ascii) : Prop :=
  (65 <= nat_of_ascii c <= 90 \/ 97 <= nat_of_ascii c <= 122 \/ 48 <= nat_of_ascii c <= 57 \/ nat_of_ascii c = 95)%nat.
Definition structure_pointer (key : str) : Prop :=
  key = $"^STRUCTURE" \/ exists w, w <> [] /\ Forall word_char w /\ key = $"^" ++ w ++ $"_STRUCTURE".
(** the columns a file stands for: its items, or those of its only item if that is a table *)
Definition mentions_table (k : str) : Prop := exists a b, k = a ++ $"TABLE" ++ b.
Inductive stands_for : list (str * pv) -> list (str * pv) -> Prop :=
| one_table k v items : mentions_table k -> v = PMulti items \/ v = PDict items -> stands_for [(k, v)] items
| bare items : (forall k v, items = [(k, v)] -> ~ mentions_table k) -> stands_for items items.
Section Format.
Variable contents : pv -> option (list (str * pv)).
Inductive expands : list (str * pv) -> list (str * pv) -> Prop :=
| ex_nil : expands [] []
| ex_keep k v l l' : ~ structure_pointer k -> expands l l' -> expands ((k, v) :: l) ((k, v) :: l')
| ex_file k v l l' file items items' : structure_pointer k -> contents v = Some file -> stands_for file items ->
    expands items items' -> expands l l' -> expands ((k, v) :: l) (items' ++ l').
End Format.

(** ** C26 *)
Definition occurrences (names : list str) (n : str) : nat := List.length (filter (str_eqb n) names).
Definition numbered (n : str) (k : nat) : str := n ++ $"_" ++ str_of_nat k.
Definition ends_in_number (n : str) : Prop := exists a k, n = numbered a k.

(** ** C25: a table is columns, and containers of columns *)
Record column := mkCol {
  c_name : str; c_start : Z; (* counted from 1, from the start of the row or container *)
  c_bytes : Z;
  (* number of items, bytes of each, distance between their starts if given *)
  c_items : option (Z * Z * option Z);
  (* type, and the factor and offset of its values, if given *)
  c_type : option str; c_scale : option pv; c_shift : option pv }.
Inductive element :=
| Column (c : column)
| Container (name : str) (start bytes reps : Z) (cols : list column).
(** the byte ranges (offset in the row, width) of what a column holds, if its parent starts at [base] *)
Definition item_step (width : Z) (distance : option Z) : Z := match distance with Some d => d | None => width end.
Definition column_cells (base : Z) (c : column) : list (Z * Z) :=
  match c_items c with
  | None => [(base + (c_start c - 1), c_bytes c)]
  | Some (n, w, d) => map (fun i => (base + (c_start c - 1) + Z.of_nat i * item_step w d, w)) (seq 0 (Z.to_nat n))
  end.
(** every column, once for each repetition of its container, with where its parent starts *)
Definition places (base : Z) (e : element) : list (Z * column) :=
  match e with
  | Column c => [(base, c)]
  | Container _ start bytes reps cols =>
    flat_map (fun r => map (fun c => (base + (start - 1) + Z.of_nat r * bytes, c)) cols) (seq 0 (Z.to_nat reps))
  end.
Definition table_places (prefix : Z) (t : list element) : list (Z * column) := flat_map (places prefix) t.
Definition table_cells (prefix : Z) (t : list element) : list (Z * Z) :=
  flat_map (fun x => column_cells (fst x) (snd x)) (table_places prefix t).
(** labels that say so *)
Definition holds (m : multidict) (k : str) (v : pv) : Prop := md_get m k = Some v.
Definition lacks (m : multidict) (k : str) : Prop := md_get m k = None.
Definition may_hold (m : multidict) (k : str) (v : option Z) : Prop :=
  match v with Some z => holds m k (PInt z) | None => lacks m k end.
Definition says_column (m : multidict) (c : column) : Prop :=
  holds m $"NAME" (PStr (c_name c)) /\ holds m $"START_BYTE" (PInt (c_start c)) /\
  md_get m $"DATA_TYPE" = option_map PStr (c_type c) /\ md_get m $"SCALING_FACTOR" = c_scale c /\ md_get m $"OFFSET" = c_shift c /\
  lacks m $"^STRUCTURE" /\ lacks m $"BIT_COLUMN" /\ lacks m $"BIT_ELEMENT" /\
  match c_items c with
  | None => holds m $"BYTES" (PInt (c_bytes c)) /\ lacks m $"ITEMS" /\ lacks m $"ITEM_BYTES" /\ lacks m $"ITEM_OFFSET"
  | Some (n, w, d) => holds m $"ITEMS" (PInt n) /\ holds m $"ITEM_BYTES" (PInt w) /\ may_hold m $"ITEM_OFFSET" d /\
      (holds m $"BYTES" (PInt (c_bytes c)) \/ (lacks m $"BYTES" /\ c_bytes c = n * w))
  end.
(** the keywords of a block that describe parts of the row *)
Definition part_keywords : list str :=
  [$"ARRAY"; $"COLLECTION"; $"COLUMN"; $"CONTAINER"; $"ELEMENT"; $"FIELD"; $"PRIMITIVE_ARRAY"; $"STRUCTURE"].
Inductive parts {A} (says : str -> pv -> A -> Prop) : multidict -> list A -> Prop :=
| no_parts : parts says [] []
| other_item k v m l : ~ In k part_keywords -> ~ structure_pointer k -> parts says m l -> parts says ((k, v) :: m) l
| part_item k v m x l : In k part_keywords -> says k v x -> parts says m l -> parts says ((k, v) :: m) (x :: l).
Definition says_column_item (k : str) (v : pv) (c : column) : Prop :=
  In k [$"COLUMN"; $"FIELD"; $"ELEMENT"] /\ exists m, v = PMulti m /\ says_column m c.
Definition says_element (k : str) (v : pv) (e : element) : Prop :=
  match e with
  | Column c => says_column_item k v c
  | Container name start bytes reps cols =>
    In k [$"CONTAINER"; $"COLLECTION"] /\ exists m, v = PMulti m /\
    holds m $"NAME" (PStr name) /\ holds m $"START_BYTE" (PInt start) /\ holds m $"BYTES" (PInt bytes) /\
    holds m $"REPETITIONS" (PInt reps) /\ parts says_column_item m cols
  end.
Definition says_table (m : multidict) (t : list element) : Prop := parts says_element m t /\ lacks m $"REPETITIONS".

(** the table's own NAME *)
Definition named (m : multidict) (n : option str) : Prop := md_get m $"NAME" = match n with Some s => Some (PStr s) | None => None end.

(** ** Tables whose columns are found where the label says *)
(** the first byte after an element (or the first repetition of a container), from the start of the row *)
Definition column_end (c : column) : Z := c_start c - 1 + c_bytes c.
Definition element_end (e : element) : Z :=
  match e with
  | Column c => column_end c
  | Container _ start bytes reps cols =>
    start - 1 + match rev cols with c :: _ => column_end c | [] => 0 end
  end.
Definition repeats (e : element) : Prop := match e with Column _ => False | Container _ _ _ reps _ => 1 < reps end.
Definition good_column (c : column) : Prop :=
  (forall rest, c_name c <> $"PLACEHOLDER" ++ rest) /\
  match c_items c with None => True | Some (n, w, d) => 1 <= n /\ w <= item_step w d end.
Definition good_element (e : element) : Prop :=
  match e with
  | Column c => good_column c
  | Container name _ _ reps cols =>
    1 <= reps /\ cols <> [] /\ Forall good_column cols /\ ~ (exists a b, name = a ++ $"PLACEHOLDER" ++ b)
  end.
(** a container begins where the element before it ends, and that one is not repeated *)
Inductive adjoined : element -> list element -> Prop :=
| adj_nil e : adjoined e []
| adj_column e c t : adjoined (Column c) t -> adjoined e (Column c :: t)
| adj_container e n s b r cols t : s - 1 = element_end e -> ~ repeats e -> adjoined (Container n s b r cols) t ->
    adjoined e (Container n s b r cols :: t).
Definition container_names (t : list element) : list str :=
  flat_map (fun e => match e with Column _ => [] | Container n _ _ _ _ => [n] end) t.
(** multi-item columns follow each other in the row in the order of the label *)
Definition ascending (t : list element) : Prop :=
  Sorted.StronglySorted Z.lt
    (map (fun x => fst x + c_start (snd x))
       (filter (fun x => match c_items (snd x) with Some _ => true | None => false end) (table_places 0 t))).
Definition good_table (name : option str) (t : list element) : Prop :=
  (exists c t', t = Column c :: t' /\ adjoined (Column c) t') /\
  Forall good_element t /\ NoDup (container_names t) /\ (forall n, name = Some n -> ~ In n (container_names t)) /\
  ascending t.
(** what a row of the file must look like for the row length to come out right: nothing
    extends past the last column, which is not split into items *)
Definition last_column_ends (t : list element) (c : column) : Prop :=
  (exists t', t = t' ++ [Column c]) /\ c_items c = None /\
  Forall (fun x => fst x + snd x <= column_end c) (table_cells 0 t).
