(** Specification for C86: what the label of an ARRAY of composite elements says. *)
From Verif.Base Require Import Py Val.
From Verif.Model Require Import Pds4Values Array.
From Verif.Spec Require Import Types Pds4Values Image Array Table.
Open Scope Z_scope.

(** no other parts in a label *)
Definition plain (m : multidict) : Prop := Forall (fun kv => ~ In (fst kv) part_keywords /\ ~ structure_pointer (fst kv)) m.
(** [composed m cols]: an element of the array is made of [cols]: ELEMENTs of the array's
    label, or of its one COLLECTION, which is not repeated *)
Definition says_part (k : str) (v : pv) (c : column) : Prop := k = $"ELEMENT" /\ says_column_item k v c.
Inductive composed (m : multidict) (cols : list column) : Prop :=
| of_elements : parts says_part m cols -> lacks m $"REPETITIONS" -> (exists n, named m n) -> (exists b, may_hold m $"BYTES" b) -> composed m cols
| of_collection before c after : m = before ++ ($"COLLECTION", PMulti c) :: after -> plain before -> plain after ->
    parts says_part c cols -> lacks c $"REPETITIONS" -> (exists n, named c n) -> (exists b, may_hold c $"BYTES" b) -> composed m cols.
(** a part that holds one number, of so many bytes; names are not those pdr gives to gaps *)
Definition number_part (c : column) (o : byte_order) (f : format) (w : nat) : Prop :=
  c_items c = None /\ c_bytes c = Z.of_nat w /\ (exists ty, c_type c = Some ty /\ pds3_type ty w o f) /\ (forall rest, c_name c <> $"PLACEHOLDER" ++ rest) /\ c_name c <> [].
(** a binary array of such elements *)
Definition says_record_array (m : multidict) (cols : list column) (sh : list nat) : Prop :=
  Array.holds m $"INTERCHANGE_FORMAT" (PStr $"BINARY") /\ (exists v, Array.holds m $"AXIS_ITEMS" v /\ says_shape v sh) /\
  lacks m $"BIT_ELEMENT" /\ cols <> [] /\ NoDup (map c_name cols) /\
  composed m cols /\ Forall (fun c => exists o f w, number_part c o f w) cols.
(** the bytes of one element *)
Definition total (cols : list column) : Z := fold_right Z.add 0 (map c_bytes cols).
(** each part begins where the one before it ends, the first at [at_] *)
Fixpoint back_to_back (at_ : Z) (cols : list column) : Prop :=
  match cols with [] => True | c :: cols' => c_start c = at_ /\ back_to_back (at_ + c_bytes c) cols' end.
(** the bytes of the file of a part that begins [off] bytes after the start of element [k] *)
Definition part_bytes (file : list ascii) (start : nat) (size : Z) (k : nat) (off : Z) (w : nat) : list ascii :=
  firstn w (skipn (Z.to_nat (Z.of_nat start + Z.of_nat k * size + off)) file).
