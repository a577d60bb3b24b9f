(** What the properties of FITS files (C68, C69) talk about.  FITS standard 4.0: a file is
    a sequence of HDUs, each a header followed by its data, both filled up to blocks of
    2880 bytes. *)
From Verif.Base Require Import Py Val.
From Verif.Model Require Import Scaling Pds4Types Pds4Tables Pds4Values Pds4Frame Fits.
Open Scope nat_scope.

(** ** Places *)
Definition fits_file (hs : list hdu) : Prop :=
  Forall (fun h => (0 < h_hlen h)%Z /\ (0 <= h_dlen h)%Z /\ (h_hlen h mod 2880 = 0)%Z /\ (h_dlen h mod 2880 = 0)%Z) hs.
(** bytes before the header, and before the data, of HDU [i] *)
Definition header_at (hs : list hdu) (i : nat) : Z :=
  fold_right Z.add 0%Z (map (fun h => h_hlen h + h_dlen h)%Z (firstn i hs)).
Definition data_at (hs : list hdu) (i : nat) : Z := (header_at hs i + h_hlen (nth i hs no_hdu))%Z.
(** the part of HDU [i] a name asks for starts at byte [b] (counted from 0) *)
Definition part_at (hs : list hdu) (i : nat) (header : bool) (b : Z) : Prop :=
  i < length hs /\
  (if header then b = header_at hs i
   else b = data_at hs i /\ ((0 < h_dlen (nth i hs no_hdu))%Z \/ S i = length hs)).
(** pointers ("FILE.FIT", 8641 <BYTES>) and 8641 <BYTES>, and ("FILE.FIT", 4) and 4 *)
Definition byte_pointer (t : pv) (n : Z) : Prop :=
  exists d, (t = PDict d \/ (exists f more, t = PTuple (f :: PDict d :: more)))
            /\ dict_get d $"units" = Some (PStr $"BYTES") /\ dict_get d $"value" = Some (PInt n).
Definition record_pointer (t : pv) (n : Z) : Prop := t = PInt n \/ exists f more, t = PTuple (f :: PInt n :: more).
(** a name with HEADER in it asks for a header *)
Definition asks_header (name : str) : Prop := exists a b, name = a ++ $"HEADER" ++ b.

(** ** Headers *)
(** the card as astropy can read it, if need be after mending it *)
Definition legible (c : card) : option cardtext := match c with Good c => Some c | Bad o => o end.
(** what a header says: every card that can be read and has a keyword gives its value and,
    if there is one, its comment, in order *)
Definition said (c : cardtext) : list (str * pv) :=
  if Nat.eqb (length (c_key c)) 0 then []
  else (c_key c, match c_val c with CV v => v | CUndefined => PNone | COther s => PStr s end)
         :: (if Nat.eqb (length (c_com c)) 0 then [] else [(c_key c ++ $"_comment", PStr (c_com c))]).
Definition header_says (h : hdu) : list (str * pv) :=
  flat_map (fun c => match legible c with Some c => said c | None => [] end) (h_cards h).
(** nothing in it needs mending *)
Definition clean (h : hdu) : Prop := Forall (fun c => exists t, c = Good t) (h_cards h).

(** ** Data *)
(** the columns of a field: one, or one for each element *)
Definition field_columns (f : tfield) : list (str * list dfvalue) :=
  match t_shape f with
  | [] => [(t_name f, raw (t_vals f))]
  | s => map (fun j => (t_name f ++ $"_" ++ str_of_nat j,
                        map (fun r => nth (r * prod_n s + j) (raw (t_vals f)) (VI 0))
                            (seq 0 (length (raw (t_vals f)) / prod_n s)))) (seq 0 (prod_n s))
  end.
Definition unmasked (f : tfield) : Prop := any_masked (t_vals f) = false.
(** names of columns: name, or name_k for the k-th of several with this name *)
Definition numbered (names : list str) (i : nat) : str :=
  let n := nth i names [] in
  if Nat.eqb (length (filter (str_eqb n) names)) 1 then n
  else n ++ $"_" ++ str_of_nat (length (filter (str_eqb n) (firstn i names))).
Definition all_numbered (names : list str) : list str := map (numbered names) (seq 0 (length names)).
(** ... which helps unless somebody calls a column like that *)
Definition no_clash (names : list str) : Prop :=
  forall n m k, In n names -> In m names -> n <> m ++ $"_" ++ str_of_nat k.
Definition column_names (binary : bool) (fs : list tfield) : list str :=
  if binary then all_numbered (map t_name fs) else map t_name fs.
Definition legal_table (binary : bool) (fs : list tfield) : Prop :=
  fs <> [] /\ NoDup (column_names binary fs) /\ Forall (fun f => unmasked f /\ length (t_shape f) <= 2) fs.
Definition table_columns (binary : bool) (fs : list tfield) : list (str * list dfvalue) :=
  flat_map (fun p => field_columns (mkT (snd p) (t_shape (fst p)) (t_special (fst p)) (t_vals (fst p))))
    (combine fs (column_names binary fs)).
(** the object made of the data of an HDU *)
Inductive data_object : option fbody -> fobject -> Prop :=
| no_data : data_object None (OArray [0] [])
| array_data s l : data_object (Some (FArr s l)) (OArray s l)
| table_data b fs : legal_table b fs -> data_object (Some (FTab b fs)) (OFrame (table_columns b fs)).

(** ** PDS4 *)
(** a header object of this file ending where the data begin *)
Definition header_before (s h : pstruct) : Prop :=
  p_kind h = KHeader /\ p_file h = p_file s /\ exists n, p_length h = Some n /\ (p_offset h + n = p_offset s)%Z.

(** ** Keys of a FITS file *)
Definition hdu_key (hs : list hdu) (i : nat) : str := numbered (map h_name hs) i.

(** ** PDS3 *)
(** a pointer to byte [b]: by bytes or by records, both counted from 1; records, if their
    number is below 2880 or at least is not also the number of a byte where a part of this
    kind begins *)
Definition pointer_to (hs : list hdu) (header : bool) (target : pv) (b : Z) : Prop :=
  byte_pointer target (b + 1) \/
  exists n, record_pointer target n /\ b = ((n - 1) * 2880)%Z /\
    ((n < 2880)%Z \/ (forall j, ~ part_at hs j header (n - 1) /\ ~ part_at hs j header n)).
