(** Specification for C46-C48, C61 and C62: integer types, special constants, scaling and
    bit masks of PDS4 arrays. *)
From Coq Require Import QArith Qabs.
From Verif.Base Require Export Py Val Numpy Float.
From Verif.Model Require Export Types Scaling Pds4Types.
From Verif.Spec Require Export Scaling.
Open Scope Z_scope.

(** ** Types and arrays *)
(** the integers an array of that type can hold *)
Definition int_fits (t : ptype) (z : Z) : Prop :=
  match t with TNum (DInt s b) => int_holds s b z | TNum _ => False | TObj => True end.
Definition machine_int (t : ptype) : Prop := exists s b, t = TNum (DInt s b) /\ numpy_int b.
(** the lowest number of a type of signed integers *)
Definition lowest (t : ptype) (z : Z) : Prop := match t with TNum (DInt true b) => z = - 2 ^ (8 * b - 1) | _ => False end.
(** an array of machine integers, each a number of its type *)
Definition int_array (a : parr) : Prop :=
  machine_int (ptype_of a) /\ Forall (fun c => exists z, fst c = EI z /\ int_fits (ptype_of a) z) (cells a).
Definition float_array (d : dt) (a : parr) : Prop :=
  is_float d /\ ptype_of a = TNum d /\
  Forall (fun c => exists v, fst c = EF v /\ forall q, v = Fin q -> holds d q) (cells a).
Definition unmasked (a : parr) : Prop := Forall (fun c => snd c = false) (cells a).
Definition has_masked (a : parr) : Prop := Exists (fun c => snd c = true) (cells a).
(** the integers of an array *)
Definition ints (a : parr) : list Z := map (fun c => match fst c with EI z => z | EF _ => 0 end) (cells a).

(** ** Special constants *)
(** a constant of the label that stands for missing data: all but those called valid_... *)
Definition masking (sc : list (str * special)) (c : special) : Prop :=
  exists k, In (k, c) sc /\ ~ exists rest, k = $"valid_" ++ rest.
Definition special_int (sc : list (str * special)) (z : Z) : Prop := masking sc (CI z).
(** a float of type [d] equals a constant when it is that constant rounded to [d] *)
Definition special_float (d : dt) (sc : list (str * special)) (v : num) : Prop :=
  exists c q, masking sc c /\ (c = CF q \/ exists z, c = CI z /\ q = inject_Z z) /\
    exists r, v = Fin r /\ (r == round_to d q)%Q.
Definition special_in (sc : option (list (str * special))) (z : Z) : Prop :=
  match sc with Some l => special_int l z | None => False end.

(** ** Scaling with integers *)
(** a factor of the label, [dflt] when it is missing *)
Definition int_factor (c : option scalar) (dflt k : Z) : Prop := c = None /\ k = dflt \/ c = Some (SI k).
(** factors that numpy holds as a machine integer or a float *)
Definition small_factor (c : option scalar) : Prop := forall z, c = Some (SI z) -> Z.abs z < 2 ^ 63.
(** masked elements and special constants stay, others become z * k + j; special
    constants become masked unless the array came with a mask *)
Definition scaled_cell (k j : Z) (sc : option (list (str * special))) (a : parr) (x y : elt * bool) : Prop :=
  exists z, fst x = EI z /\
    (snd x = true \/ special_in sc z -> fst y = EI z) /\
    (snd x = false /\ ~ special_in sc z -> fst y = EI (z * k + j)) /\
    (snd y = true <-> snd x = true \/ special_in sc z /\ ~ has_masked a).
(** the extreme values of an array, before and after scaling *)
Definition extremes (l : list Z) (k j : Z) (v : Z) : Prop :=
  exists z, In z l /\ ((forall y, In y l -> z <= y) \/ (forall y, In y l -> y <= z)) /\ (v = z \/ v = z * k + j).
(** sizes for which a signed type is chosen whatever the signs, and for which an
    unsigned type is chosen for numbers that are not negative *)
Definition signed_size (m : Z) : Prop :=
  m < 2 ^ 7 \/ 2 ^ 8 <= m < 2 ^ 15 \/ 2 ^ 16 <= m < 2 ^ 31 \/ 2 ^ 32 <= m < 2 ^ 63.
Definition unsigned_size (m : Z) : Prop :=
  2 ^ 7 <= m < 2 ^ 8 \/ 2 ^ 15 <= m < 2 ^ 16 \/ 2 ^ 31 <= m < 2 ^ 32 \/ 2 ^ 63 <= m < 2 ^ 64.

(** ** Bit masks: bit [i] of a number is kept where the mask, a text of zeros and ones
    whose last digit is bit 0, has a one *)
Definition mask_bit (bits : str) (i : Z) : bool :=
  match nth_error (rev bits) (Z.to_nat i) with Some c => Ascii.eqb c "1"%char | None => false end.
Definition bits_kept (width : Z) (bits : str) (z z' : Z) : Prop :=
  forall i, 0 <= i < width -> Z.testbit z' i = Z.testbit z i && mask_bit bits i.
Definition binary (bits : str) : Prop := Forall (fun c => c = "0"%char \/ c = "1"%char) bits.
Definition width_of (a : parr) : Z := match ptype_of a with TNum (DInt _ b) => 8 * b | _ => 0 end.
(** the number the mask stands for is one of the array's type *)
Definition mask_fits (bits : str) (a : parr) : Prop :=
  Z.of_nat (length bits) <= width_of a /\ (forall b, ptype_of a = TNum (DInt true b) -> mask_bit bits (8 * b - 1) = false).
(** some bit of the elements is masked away *)
Definition some_zero (bits : str) (a : parr) : Prop := exists i, 0 <= i < width_of a /\ mask_bit bits i = false.
Definition bits_cell (bits : str) (sc : option (list (str * special))) (a : parr) (x y : elt * bool) : Prop :=
  exists z z', fst x = EI z /\ fst y = EI z' /\ snd y = false /\ int_fits (ptype_of a) z' /\
    (special_in sc z -> z' = z) /\ (~ special_in sc z -> bits_kept (width_of a) bits z z').

(** ** Scaling in double precision *)
Definition number (x : elt) : num := match x with EI z => Fin (inject_Z z) | EF v => v end.
Definition factor (c : option scalar) (dflt : Z) : Q := match c with Some c => scalar_q c | None => inject_Z dflt end.
(** the same number; integers are rounded to doubles *)
Definition as_double (x y : num) : Prop :=
  match x, y with Fin q, Fin r => nearest DF64 q r | Inf s, Inf s' => s = s' | NaN, NaN => True | _, _ => False end.
Definition special_elt (t : ptype) (sc : option (list (str * special))) (x : elt) : Prop :=
  match sc, t, x with
  | Some l, TNum (DInt _ _), EI z => special_int l z
  | Some l, TNum d, EF v => special_float d l v
  | _, _, _ => False
  end.
Definition double_cell (s o : Q) (sc : option (list (str * special))) (a : parr) (x y : elt * bool) : Prop :=
  let kept := snd x = true \/ special_elt (ptype_of a) sc (fst x) in
  (kept -> as_double (number (fst x)) (number (fst y))) /\
  (~ kept -> float_scaled DF64 s o (number (fst x)) (number (fst y))) /\
  (snd y = true <-> snd x = true \/ special_elt (ptype_of a) sc (fst x) /\ ~ has_masked a).
(** constants are numbers of the range of the type *)
Definition finite_constants (t : ptype) (sc : option (list (str * special))) : Prop :=
  match sc, t with
  | Some l, TNum d => is_float d -> forall c, masking l c ->
      match c with CI z => (Qabs (round_to d (inject_Z z)) <= fmax d)%Q | CF q => (Qabs (round_to d q) <= fmax d)%Q | CStr _ => True end
  | _, _ => True
  end.
(** far from the largest double *)
Definition moderate_array (s o : Q) (a : parr) : Prop :=
  moderate DF64 s /\ moderate DF64 o /\
  Forall (fun c => forall q, number (fst c) = Fin q -> moderate DF64 (q * s)) (cells a).
(** a label without scaling: the factor is 1 or missing, the offset 0 or missing *)
Definition without_scaling (s o : option scalar) : Prop := (factor s 1 == 1)%Q /\ (factor o 0 == 0)%Q.

(** ** The array the caller holds *)
(** elements that are overwritten with their scaled values; the mask stays *)
Definition overwritten (k j : Z) (sc : option (list (str * special))) (x y : elt * bool) : Prop :=
  exists z, fst x = EI z /\ snd y = snd x /\
    (snd x = true \/ special_in sc z -> fst y = EI z) /\
    (snd x = false /\ ~ special_in sc z -> fst y = EI (z * k + j)).
