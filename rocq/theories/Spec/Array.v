(** What the bytes of PDS3 arrays and binary tables hold, and the numbers of a text. *)
From Coq Require Import QArith.
From Verif.Base Require Import Py Val Numpy.
From Verif.Model Require Import Types Scaling Pds4Types Pds4Values Array.
From Verif.Spec Require Import Types Scaling Pvl Pds4Values Image.
Open Scope Z_scope.

(** ** Types of numbers.  MSB_UNSIGNED_INTEGER of 2 bytes: an unsigned integer, most
    significant byte first.  Names may be written with blanks for underscores. *)
Inductive pds3_type (name : str) (w : nat) : byte_order -> format -> Prop :=
| p_integer o s : integer_name (underscored name) -> In w [1; 2; 4; 8]%nat ->
    (o = LSB <-> little_endian_name (underscored name)) -> (s = false <-> unsigned_name (underscored name)) ->
    pds3_type name w o (Integer s)
| p_real : In (underscored name) big_real_names -> In w [4; 8]%nat -> pds3_type name w MSB Ieee
| p_pc_real : underscored name = $"PC_REAL" -> In w [4; 8]%nat -> pds3_type name w LSB Ieee.
(** the element that these bytes hold *)
Definition cell_holds (o : byte_order) (f : format) (w : nat) (bs : list ascii) (x : cell) : Prop :=
  exists p, x = CNum p /\ pixel_holds o f w bs (PElt p).

(** ** Shapes: one size, or a sequence of them *)
Inductive says_shape : pv -> list nat -> Prop :=
| s_one n : says_shape (PInt (Z.of_nat n)) [n]
| s_many l : l <> [] -> says_shape (PTuple (map (fun n => PInt (Z.of_nat n)) l)) l.
Definition holds (m : multidict) (k : str) (v : pv) : Prop := md_get m k = Some v.
Definition lacks (m : multidict) (k : str) : Prop := md_get m k = None.
(** an array of elements of one type, stored in binary *)
Definition says_array (m : multidict) (name : str) (w : nat) (sh : list nat) : Prop :=
  holds m $"INTERCHANGE_FORMAT" (PStr $"BINARY") /\ holds m $"DATA_TYPE" (PStr name) /\ holds m $"BYTES" (PInt (Z.of_nat w)) /\
  (exists v, holds m $"AXIS_ITEMS" v /\ says_shape v sh) /\
  lacks m $"ARRAY" /\ lacks m $"BIT_ELEMENT" /\ lacks m $"COLLECTION" /\ lacks m $"ELEMENT".
(** ... or written in a text; the interchange format need not be given *)
Definition says_text_array (m : multidict) (sh : list nat) : Prop :=
  md_get m $"INTERCHANGE_FORMAT" <> Some (PStr $"BINARY") /\ (exists v, holds m $"AXIS_ITEMS" v /\ says_shape v sh).

(** ** Texts of numbers *)
(** a number: perhaps a sign, then digits, perhaps with a point after the first or later *)
Inductive plain_number : str -> Q -> Prop :=
| p_number neg sg ip point fp n q : sign_text neg sg -> ip <> [] -> (point = $"." \/ (point = [] /\ fp = [])) ->
    numeral_value 10 (ip ++ fp) = Some n ->
    (q == (if neg then -1 else 1) * inject_Z (Z.of_N n) * Qpower 10 (- Z.of_nat (length fp)))%Q ->
    plain_number (sg ++ ip ++ point ++ fp) q.
(** what may stand between numbers: anything but digits, letters, signs and points *)
Definition letter (c : ascii) : Prop := (65 <= nat_of_ascii c <= 90 \/ 97 <= nat_of_ascii c <= 122)%nat.
Definition gap_char (c : ascii) : Prop := ~ decimal_digit c /\ ~ letter c /\ ~ In c ["+"; "-"; "."]%char.
Definition gap (s : str) : Prop := Forall gap_char s.
(** the text has these numbers, with something between any two of them *)
Definition at_gap (s : str) : Prop := match s with [] => True | c :: _ => gap_char c end.
Inductive number_text : str -> list Q -> Prop :=
| t_end g : gap g -> number_text g []
| t_number g tok q rest qs : gap g -> plain_number tok q -> at_gap rest -> number_text rest qs ->
    number_text (g ++ tok ++ rest) (q :: qs).
