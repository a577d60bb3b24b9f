(** Specification for C44, C45 and C63: where the values of the fields of PDS4 tables are. *)
From Coq Require Import ZArith.
From Verif.Base Require Export Py.
From Verif.Model Require Export Pds4Tables.
Open Scope nat_scope.

(** ** Delimited records *)
(** the text of a column: as it is, or in quotes *)
Inductive coltext := Plain (s : str) | Quoted (s : str).
Definition value (c : coltext) : str := match c with Plain s => s | Quoted s => s end.
Definition text (c : coltext) : str := match c with Plain s => s | Quoted s => QUOTE :: s ++ [QUOTE] end.
(** in quotes there are no quotes; otherwise there is no delimiter and the first
    character is no quote *)
Definition well_formed (d : ascii) (c : coltext) : Prop :=
  match c with
  | Quoted s => ~ In QUOTE s
  | Plain s => ~ In d s /\ ~ exists rest, s = QUOTE :: rest
  end.
Definition record_text (d : ascii) (cols : list coltext) : str := join [d] (map text cols).
(** comma, semicolon, vertical bar, tab *)
Definition delimiter (d : ascii) : Prop := d = ","%char \/ d = ";"%char \/ d = "|"%char \/ d = "009"%char.
Definition occurs_in (p s : str) : Prop := exists a b, s = a ++ p ++ b.
Definition record_end (rd : str) : Prop := rd = [NL] \/ rd = [CR; NL].
(** the bytes of a table: records, each with its end, and anything *)
Definition table_text (d : ascii) (rd : str) (recs : list (list coltext)) (rest : str) : str :=
  concat (map (fun cols => record_text d cols ++ rd) recs) ++ rest.
Definition good_record (d : ascii) (rd : str) (cols : list coltext) : Prop :=
  cols <> [] /\ Forall (well_formed d) cols /\ ~ occurs_in rd (record_text d cols).

(** ** Fields and groups: fields are numbered in the order of the label *)
Fixpoint fields_in (i : item) : nat :=
  match i with Fld _ _ => 1 | Grp _ _ _ cs => list_sum (map fields_in cs) end.
Definition fields_of (f : list item) : nat := list_sum (map fields_in f).
(** which field each column of a record belongs to: a group is written repetition after
    repetition *)
Fixpoint owners_item (k : nat) (i : item) : list nat :=
  match i with
  | Fld _ _ => [k]
  | Grp r _ _ cs =>
      concat (repeat ((fix go (k : nat) (cs : list item) : list nat :=
                         match cs with [] => [] | c :: cs => owners_item k c ++ go (k + fields_in c) cs end) k cs) r)
  end.
Fixpoint owners_from (k : nat) (f : list item) : list nat :=
  match f with [] => [] | i :: f => owners_item k i ++ owners_from (k + fields_in i) f end.
Definition owners (f : list item) : list nat := owners_from 0 f.
Definition plain_fields (f : list item) : Prop := forall i, In i f -> exists l n, i = Fld l n.
(** the values of field [k] in a record: those of its columns, in order *)
Definition values_of {A} (k : nat) (own : list nat) (vals : list A) : list A :=
  map snd (filter (fun p => fst p =? k) (combine own vals)).
(** groups are repeated at least once *)
Fixpoint repeated (i : item) : Prop :=
  match i with
  | Fld _ _ => True
  | Grp r _ _ cs => 1 <= r /\ (fix all (cs : list item) : Prop := match cs with [] => True | c :: cs => repeated c /\ all cs end) cs
  end.
Definition all_repeated (f : list item) : Prop := Forall repeated f.
(** the fields that are in a group, one answer for each field *)
Definition grouped (f : list item) : list bool :=
  flat_map (fun i => match i with Fld _ _ => [false] | Grp _ _ _ _ => repeat true (fields_in i) end) f.
(** no column number of a field in a group is the last of its integer type, and the type
    is signed if the field has column 0 *)
Definition safe_last (n : nat) : Prop :=
  let z := Z.of_nat n in
  (z < 127 \/ 128 <= z < 255 \/ 256 <= z < 32767 \/ 32768 <= z < 65535 \/ 65536 <= z < 2 ^ 31 - 1)%Z.
Definition signed_last (n : nat) : Prop :=
  let z := Z.of_nat n in (z < 128 \/ 256 <= z < 32768 \/ 65536 <= z < 2 ^ 31)%Z.
Definition safe_columns (f : list item) : Prop :=
  forall k n, nth_error (grouped f) k = Some true -> nth_error (owners f) n = Some k ->
    (forall n', nth_error (owners f) n' = Some k -> n' <= n) ->
    safe_last n /\ (nth_error (owners f) 0 = Some k -> signed_last n).

(** ** Fixed-width records: field number, first byte (from 0) and length of each value *)
Fixpoint places_item (k : nat) (base : Z) (i : item) : list (nat * (Z * Z)) :=
  match i with
  | Fld l n => [(k, (base + (l - 1), n))%Z]
  | Grp r l n cs =>
      flat_map (fun j =>
        (fix go (k : nat) (cs : list item) : list (nat * (Z * Z)) :=
           match cs with
           | [] => []
           | c :: cs => places_item k (base + (l - 1) + Z.of_nat j * (n / Z.of_nat r))%Z c ++ go (k + fields_in c) cs
           end) k cs) (seq 0 r)
  end.
Fixpoint places_from (k : nat) (base : Z) (f : list item) : list (nat * (Z * Z)) :=
  match f with [] => [] | i :: f => places_item k base i ++ places_from (k + fields_in i) base f end.
Definition places (f : list item) : list (nat * (Z * Z)) := places_from 0 0 f.
(** the bytes from [start], [len] of them *)
Definition bytes_at (data : str) (start len : nat) : str := firstn len (skipn start data).
(** the groups are repeated at least once, and each of their repetitions has the same
    whole number of bytes *)
Fixpoint even_item (i : item) : Prop :=
  match i with
  | Fld _ _ => True
  | Grp r _ n cs => 1 <= r /\ (exists q, n = q * Z.of_nat r)%Z /\
      (fix all (cs : list item) : Prop := match cs with [] => True | c :: cs => even_item c /\ all cs end) cs
  end.
Definition even_groups (f : list item) : Prop := Forall even_item f.
(** every value lies in its record *)
Definition fits_record (record_length : Z) (f : list item) : Prop :=
  forall p, In p (places f) -> (0 <= fst (snd p) /\ 0 <= snd (snd p) /\ fst (snd p) + snd (snd p) <= record_length)%Z.
(** the bytes of field [k] in the records of a table that starts at [offset] *)
Definition field_values (f : list item) (record_length num_records offset : nat) (file : str) (k : nat) : list str :=
  flat_map (fun r => map (fun p => bytes_at file (offset + r * record_length + Z.to_nat (fst (snd p))) (Z.to_nat (snd (snd p))))
                         (filter (fun p => fst p =? k) (places f))) (seq 0 num_records).
