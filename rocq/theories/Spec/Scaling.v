(** Specification for C27-C30: what numbers an element type can hold, what the factors
    of a label are, what scaling should give. *)
From Coq Require Import QArith Qabs.
From Verif.Base Require Export Py Val Numpy Float.
From Verif.Model Require Import Scaling.
Open Scope Z_scope.

(** ** Numbers of an element type *)
Definition int_holds (signed : bool) (bytes z : Z) : Prop :=
  if signed then - 2 ^ (8 * bytes - 1) <= z < 2 ^ (8 * bytes - 1) else 0 <= z < 2 ^ (8 * bytes).
Definition largest32 : Q := inject_Z ((2 ^ 24 - 1) * 2 ^ 104).
Definition largest64 : Q := inject_Z ((2 ^ 53 - 1) * 2 ^ 971).
Arguments largest32 : simpl never. Arguments largest64 : simpl never.
Definition holds (d : dt) (q : Q) : Prop :=
  match d with
  | DInt s b => exists z, (q == inject_Z z)%Q /\ int_holds s b z
  | DF32 => on_grid 24 (-149) q /\ (Qabs q <= largest32)%Q
  | DF64 => on_grid 53 (-1074) q /\ (Qabs q <= largest64)%Q
  end.
Definition is_float (d : dt) : Prop := match d with DInt _ _ => False | _ => True end.
Definition numpy_int (bytes : Z) : Prop := bytes = 1 \/ bytes = 2 \/ bytes = 4 \/ bytes = 8.
Definition proper_type (d : dt) : Prop := match d with DInt _ b => numpy_int b | _ => True end.
(** [r] is the number of type [d] nearest to [q] *)
Definition nearest (d : dt) (q r : Q) : Prop :=
  holds d r /\ forall y, holds d y -> (Qabs (r - q) <= Qabs (y - q))%Q.
(** every element is of the array's type *)
Definition well_typed (a : ndarray) : Prop :=
  proper_type (dtype a) /\
  forall idx, valid (shape (elems a)) idx ->
    match val (at_ (elems a) idx) with Fin q => holds (dtype a) q | _ => is_float (dtype a) end.

(** ** The label's factors: missing or blank ones count as [dflt] *)
Inductive says (block : multidict) (key : str) (dflt : Z) : scalar -> Prop :=
| says_missing : md_get block key = None -> says block key dflt (SI dflt)
| says_blank t : md_get block key = Some (PStr t) -> In (upper (strip t)) [$"NULL"; $"N/A"; []] -> says block key dflt (SI dflt)
| says_int z : md_get block key = Some (PInt z) -> says block key dflt (SI z)
| says_float q : md_get block key = Some (PFloat q) -> says block key dflt (SF q)
| says_int_units d z : md_get block key = Some (PDict d) -> dict_get d $"value" = Some (PInt z) -> says block key dflt (SI z)
| says_float_units d q : md_get block key = Some (PDict d) -> dict_get d $"value" = Some (PFloat q) -> says block key dflt (SF q).
(** one number per plane *)
Definition says_planes (block : multidict) (key : str) (cs : list scalar) : Prop :=
  exists vs, md_get block key = Some (PTuple vs) /\
    Forall2 (fun v c => v = match c with SI z => PInt z | SF q => PFloat q end) vs cs.
Definition unscaled (s o : scalar) : Prop := (scalar_q s == 1)%Q /\ (scalar_q o == 0)%Q.

(** ** Scaled elements *)
(** a double or single precision computation of x * s + o: each step correctly rounded *)
Definition float_scaled (d : dt) (s o : Q) (x r : num) : Prop :=
  match x with
  | Fin q => exists x' s' o' m r', r = Fin r' /\ nearest d q x' /\ nearest d s s' /\ nearest d o o' /\
               nearest d (x' * s') m /\ nearest d (m + o') r'
  | NaN => r = NaN
  | Inf n => exists s', nearest d s s' /\
      ((0 < s')%Q -> r = Inf n) /\ ((s' < 0)%Q -> r = Inf (negb n)) /\ ((s' == 0)%Q -> r = NaN)
  end.
(** the elements of [r] are those of [a] scaled; masked elements stay as they are *)
Definition scaled_by (f : list nat -> num -> num -> Prop) (a r : ndarray) : Prop :=
  shape (elems r) = shape (elems a) /\
  forall idx, valid (shape (elems a)) idx ->
    let x := at_ (elems a) idx in let y := at_ (elems r) idx in
    masked y = masked x /\ (masked x = false -> f idx (val x) (val y)).
(** what the English says: x * s + o *)
Definition exactly (s o : Q) (x r : num) : Prop :=
  match x with Fin q => exists r', r = Fin r' /\ (r' == q * s + o)%Q | _ => False end.
(** far from the largest number of the type *)
Definition limit32 : Q := inject_Z (2 ^ 124).
Definition limit64 : Q := inject_Z (2 ^ 1000).
Arguments limit32 : simpl never. Arguments limit64 : simpl never.
Definition moderate (d : dt) (q : Q) : Prop :=
  (Qabs q <= match d with DF32 => limit32 | _ => limit64 end)%Q.

(** ** Special constants *)
Inductive number_is : pv -> scalar -> Prop :=
| number_int z : number_is (PInt z) (SI z)
| number_float q : number_is (PFloat q) (SF q)
| number_bool b : number_is (PBool b) (SI (if b then 1 else 0)).
(** the label gives constant [k] for [name], alone or first of a list *)
Definition label_constant (block : multidict) (name : str) (k : scalar) : Prop :=
  In name Types.PDS3_CONSTANT_NAMES /\
  exists v, number_is v k /\ (md_get block name = Some v \/ exists vs, md_get block name = Some (PTuple (v :: vs))).
(** a customary constant of the element type *)
Definition customary (d : dt) (name : str) (q : Q) : Prop :=
  exists l, Types.implicit_constants (dtype_name d) = Some l /\ In (name, q) l.
Definition contains_value (a : ndarray) (q : Q) : Prop :=
  exists idx x, valid (shape (elems a)) idx /\ val (at_ (elems a) idx) = Fin x /\ (x == q)%Q.
(** in the precision of the array *)
Definition present (a : ndarray) (q : Q) : Prop :=
  contains_value a (match dtype a with DInt _ _ => q | DF32 => round32 q | DF64 => round64 q end).
Definition has_nonfinite (a : ndarray) : Prop :=
  exists idx, valid (shape (elems a)) idx /\ forall x, val (at_ (elems a) idx) <> Fin x.
Definition is_uint8 (d : dt) : Prop := d = DInt false 1.
(** a customary constant that occurs in the array; not looked for in uint8 arrays *)
Definition customary_found (a : ndarray) (name : str) (q : Q) : Prop :=
  ~ is_uint8 (dtype a) /\ customary (dtype a) name q /\ present a q.
(** the number is the same in double precision *)
Definition double_exact (q : Q) : Prop := holds DF64 q.
Definition const_number (c : const) (P : scalar -> Prop) : Prop := match c with CNum k => P k | CNan => True end.
