(** Specification for C87: fields of a PDS4 table that are sampled uniformly. *)
From Coq Require Import QArith Qabs.
From Verif.Base Require Import Py Val Float.
From Verif.Model Require Import Types Scaling Pds4Types.
From Verif.Spec Require Import Types Scaling.
Open Scope Z_scope.

(** a number of a label *)
Definition says_number (field : list (str * pv)) (k : str) (q : Q) : Prop :=
  (exists z, dict_get field k = Some (PInt z) /\ (q == inject_Z z)%Q) \/ dict_get field k = Some (PFloat q).
Definition says_integer (field : list (str * pv)) (k : str) (z : Z) : Prop := dict_get field k = Some (PInt z).
(** the scale, which may be written in capitals, and is linear where it is not given *)
Definition says_scale (field : list (str * pv)) (s : str) : Prop :=
  (dict_get field $"scale" = None /\ s = $"linear") \/ exists t, dict_get field $"scale" = Some (PStr t) /\ lower t = s.
(** the values of the standard: first + j * interval; first * interval ^ j *)
Definition linear_value (first interval : Q) (j : nat) : Q := (first + inject_Z (Z.of_nat j) * interval)%Q.
Definition logarithmic_value (first interval : Z) (j : nat) : Z := first * interval ^ Z.of_nat j.
(** integers that have at most eight bytes: the type of both is int64 or, if neither is negative, uint64 *)
Definition eight_bytes (a b : Z) : Prop := Z.abs a < 2 ^ 63 /\ Z.abs b < 2 ^ 63 \/ 0 <= a < 2 ^ 64 /\ 0 <= b < 2 ^ 64.
(** a cell has the number [q], or the double nearest to it *)
Definition is_value (x : elt) (q : Q) : Prop := exists r, x = EF (Fin r) /\ (r == q)%Q.
Definition near_value (x : elt) (q : Q) : Prop := exists r, x = EF (Fin r) /\ nearest DF64 q r.
(** numbers that are not so large that they are infinite as doubles *)
Definition finite (q : Q) : Prop := (Qabs q <= inject_Z (2 ^ 1023))%Q.
