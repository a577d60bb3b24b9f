(** What the cells of a binary PDS3 table hold, and what factors and offsets make of them. *)
From Coq Require Import QArith Qabs.
From Verif.Base Require Import Py Val Numpy.
From Verif.Model Require Import Types Scaling Pds4Types Pds4Values Array TableValues.
From Verif.Spec Require Import Types Ibm Pds4Values Array Table.
From Verif.Spec Require Scaling.
Open Scope Z_scope.

(** ** The columns of the frame: each column of the label once for each of its items and
    each repetition of its container, with its offset in the row and its width *)
Definition table_columns (prefix : Z) (t : list element) : list (column * (Z * Z)) :=
  flat_map (fun x => map (pair (snd x)) (column_cells (fst x) (snd x))) (table_places prefix t).
(** its name: the label's if no other has it, else numbered from 0 *)
Definition frame_name (names : list str) (i : nat) (x : str) : Prop :=
  exists n, nth_error names i = Some n /\
    ((occurrences names n = 1%nat /\ x = n) \/ (occurrences names n <> 1%nat /\ x = numbered n (occurrences (firstn i names) n))).
Definition cell_in (row : list ascii) (c : Z * Z) : list ascii := firstn (Z.to_nat (snd c)) (skipn (Z.to_nat (fst c)) row).

(** ** What the type of a column says *)
Definition mentions (w name : str) : Prop := exists a b, name = a ++ w ++ b.
(** IBM...REAL, VAX...REAL *)
Definition foreign_real (name : str) : Prop := exists p rest, In p [$"IBM"; $"VAX"] /\ name = p ++ rest /\ mentions $"REAL" rest.
Inductive kind := Number (o : byte_order) (f : format) | Boolean | Characters | Opaque | Ebcdic | IbmShort | IbmLong | VaxReal.
Inductive of_kind (name : str) (w : nat) : kind -> Prop :=
| is_number o f : pds3_type name w o f -> name <> $"BOOLEAN" -> ~ foreign_real name -> ~ mentions $"EBCDIC" name -> of_kind name w (Number o f)
| is_boolean : name = $"BOOLEAN" -> In w [1; 2; 4; 8]%nat -> of_kind name w Boolean
| is_characters : In name [$"CHARACTER"; $"DATE"; $"TIME"] -> (0 < w)%nat -> of_kind name w Characters
| is_opaque : In (underscored name) [$"MSB_BIT_STRING"; $"LSB_BIT_STRING"; $"VOID"; $"BCD"; $"BINARY_CODED_DECIMAL"] -> (0 < w)%nat -> of_kind name w Opaque
| is_ebcdic : In (underscored name) [$"EBCDIC"; $"EBCDIC_CHARACTER"] -> (0 < w)%nat -> of_kind name w Ebcdic
| is_ibm_short : underscored name = $"IBM_REAL" -> w = 4%nat -> of_kind name w IbmShort
| is_ibm_long : underscored name = $"IBM_REAL" -> w = 8%nat -> of_kind name w IbmLong
| is_vax : underscored name = $"VAX_REAL" -> w = 4%nat -> of_kind name w VaxReal.
(** the word that these bytes hold, most significant byte first *)
Definition big_word (w : nat) (n : N) (bs : list ascii) : Prop := written MSB w (Z.of_N n) bs.
Section Foreign.
Variable from_vax32 : N -> num.
Variable cp500 : ascii -> ascii.
(** the value of a cell *)
Definition cell_value (k : kind) (w : nat) (bs : list ascii) (v : vcell) : Prop :=
  match k with
  | Number o f => exists x, v = VNum x /\ pixel_holds o f w bs (PElt x)
  | Boolean => exists b, v = VBool b /\ (b = true <-> exists c, In c bs /\ c <> "000"%char)
  (* zero bytes at the end of a text are not part of it *)
  | Characters => exists u n, v = VBytes u /\ bs = u ++ repeat "000"%char n /\ no_final_nul u
  | Opaque => v = VBytes bs
  | Ebcdic => v = VText (map cp500 bs)
  (* exactly the number, or the single precision number nearest to it *)
  | IbmShort => exists s e f q, fields_ok 24 s e f /\ big_word w (ibm_word 24 s e f) bs /\ v = VNum (EF (Fin q)) /\
      ((q == ibm_number 24 s e f)%Q \/ Scaling.nearest DF32 (ibm_number 24 s e f) q)
  (* the double nearest to it *)
  | IbmLong => exists s e f q, fields_ok 56 s e f /\ big_word w (ibm_word 56 s e f) bs /\ v = VNum (EF (Fin q)) /\
      Scaling.nearest DF64 (ibm_number 56 s e f) q
  | VaxReal => exists n, written LSB w (Z.of_N n) bs /\ (n < 2 ^ 32)%N /\ v = VNum (EF (from_vax32 n))
  end.
End Foreign.

(** ** Factors and offsets *)
(** the number type of a column of numbers *)
Definition number_type (f : format) (w : nat) : dt :=
  match f with Integer s => DInt s (Z.of_nat w) | _ => if Nat.eqb w 4 then DF32 else DF64 end.
(** The label's factor [v] of a column, if [all] are those of all columns of the table
    ([None] also for the bytes that pad the rows): integers stay integers only if all are;
    a factor or offset of 0 counts as none. *)
Definition is_int (v : option pv) : Prop := exists z, v = Some (PInt z).
Definition is_number_or_none (v : option pv) : Prop := v = None \/ is_int v \/ exists q, v = Some (PFloat q).
Inductive amount (all : list (option pv)) : option pv -> option scalar -> Prop :=
| a_none : amount all None None
| a_zero : amount all (Some (PInt 0)) None
| a_zero_real q : (q == 0)%Q -> amount all (Some (PFloat q)) None
| a_int z : z <> 0 -> Forall is_int all -> amount all (Some (PInt z)) (Some (SI z))
| a_int_real z r : z <> 0 -> ~ Forall is_int all -> Scaling.nearest DF64 (inject_Z z) r -> amount all (Some (PInt z)) (Some (SF r))
| a_real q : ~ (q == 0)%Q -> amount all (Some (PFloat q)) (Some (SF q)).
(** one operation on a column of type [d]: integers by integers stay of the type, modulo
    2^bits; otherwise in floating point, in double precision if the column was of integers *)
Definition result_type (d : dt) (c : scalar) : dt := match d, c with DInt _ _, SF _ => DF64 | _, _ => d end.
Definition value_of (x : elt) : num := match x with EI z => Fin (inject_Z z) | EF v => v end.
Definition op_Z (o : op) (a b : Z) : Z := match o with OMul => a * b | OAdd => a + b end.
Definition op_Q (o : op) (a b : Q) : Q := match o with OMul => (a * b)%Q | OAdd => (a + b)%Q end.
Definition combined (o : op) (d : dt) (c : scalar) (x y : elt) : Prop :=
  match d, c with
  | DInt s b, SI z => forall v, x = EI v -> exists r, y = EI r /\ Scaling.int_holds s b r /\ exists k, r = op_Z o v z + k * 2 ^ (8 * b)
  | _, _ =>
      let d' := result_type d c in
      Scaling.moderate d' (scalar_q c) -> exists c', Scaling.nearest d' (scalar_q c) c' /\
      match value_of x with
      | Fin q => Scaling.moderate d' q -> exists q', (match x with EI _ => Scaling.nearest d' q q' | EF _ => q' = q end) /\
          (Scaling.moderate d' (op_Q o q' c') -> exists r, y = EF (Fin r) /\ Scaling.nearest d' (op_Q o q' c') r)
      | NaN => y = EF NaN
      | Inf n => match o with
          | OAdd => y = EF (Inf n)
          | OMul => ((0 < c')%Q -> y = EF (Inf n)) /\ ((c' < 0)%Q -> y = EF (Inf (negb n))) /\ ((c' == 0)%Q -> y = EF NaN)
          end
      end
  end.
Definition operated (o : op) (c : option scalar) (from to : dt * list vcell) : Prop :=
  match c with
  | None => to = from
  | Some c => fst to = result_type (fst from) c /\
      Forall2 (fun v v' => exists x y, v = VNum x /\ v' = VNum y /\ combined o (fst from) c x y) (snd from) (snd to)
  end.
(** an integer factor must itself be of the column's type *)
Definition fits (d : dt) (c : option scalar) : Prop :=
  match d, c with DInt s b, Some (SI z) => Scaling.int_holds s b z | _, _ => True end.

(** ** Tables *)
(** a column's type, with the width of one cell *)
Definition kind_of_column (x : column * (Z * Z)) (k : kind) : Prop :=
  exists ty, c_type (fst x) = Some ty /\ of_kind ty (Z.to_nat (snd (snd x))) k /\ ~ mentions $"ASCII" ty /\
    (k = IbmShort \/ k = IbmLong -> c_items (fst x) = None).
(** names that are not the ones pdr gives to other things *)
Definition plain_name (n : str) : Prop := ~ ends_in_number n /\ n <> $"RESERVED" /\ ~ mentions $"PLACEHOLDER" n.
(** a binary table with this many rows *)
Definition binary_block (m : multidict) (name : str) (rows : nat) : Prop :=
  ~ mentions $"SPREADSHEET" name /\ ~ mentions $"ASCII" name /\ md_get m $"INTERCHANGE_FORMAT" <> Some (PStr $"ASCII") /\
  (md_get m $"ROWS" = Some (PInt (Z.of_nat rows)) \/ (md_get m $"ROWS" = None /\ rows = 1%nat)).
(** the factors (or offsets) of all columns, and of the bytes after the last one if any *)
Definition factors (get : column -> option pv) (cols : list (column * (Z * Z))) (padded : bool) : list (option pv) :=
  map (fun x => get (fst x)) cols ++ (if padded then [None] else []).
Definition usable_factors (l : list (option pv)) : Prop :=
  Forall is_number_or_none l /\ forall z, In (Some (PInt z)) l -> Scaling.moderate DF64 (inject_Z z).
(** factors and offsets are for columns of numbers; integer ones are of the column's type *)
Definition may_scale (scales shifts : list (option pv)) (x : column * (Z * Z)) (k : kind) : Prop :=
  forall a b, amount scales (c_scale (fst x)) a -> amount shifts (c_shift (fst x)) b ->
    match k with
    | Number _ f =>
        let d := number_type f (Z.to_nat (snd (snd x))) in
        fits d a /\ fits (match a with Some c => result_type d c | None => d end) b
    | _ => a = None /\ b = None
    end.
Section Held.
Variable from_vax32 : N -> num.
Variable cp500 : ascii -> ascii.
(** what a column of the frame holds: of each row its cell's value, those of numbers times
    the factor and plus the offset *)
Definition column_holds (scales shifts : list (option pv)) (rows : list (list ascii)) (x : column * (Z * Z)) (k : kind) (col : framecol) : Prop :=
  exists raw, Forall2 (fun row v => cell_value from_vax32 cp500 k (Z.to_nat (snd (snd x))) (cell_in row (snd x)) v) rows raw /\
    match k with
    | Number _ f => exists a b d mid d', amount scales (c_scale (fst x)) a /\ amount shifts (c_shift (fst x)) b /\
        operated OMul a (number_type f (Z.to_nat (snd (snd x))), raw) (d, mid) /\ operated OAdd b (d, mid) (d', k_values col) /\ k_type col = CT d'
    | _ => k_values col = raw
    end.
End Held.
