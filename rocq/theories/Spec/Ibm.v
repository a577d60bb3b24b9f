(** Specification for C53: the number an IBM System/360 word stands for, and the
    numbers an IEEE format can hold exactly. *)
From Coq Require Import QArith Qabs.
From Verif.Base Require Export Py.
Open Scope Z_scope.
(** a word of [8 * bytes] bits made of sign, exponent and fraction fields *)
Definition ibm_word (fraction_bits : N) (sign exponent fraction : N) : N :=
  (sign * 2 ^ (fraction_bits + 7) + exponent * 2 ^ fraction_bits + fraction)%N.
Definition fields_ok (fraction_bits sign exponent fraction : N) : Prop :=
  (sign < 2 /\ exponent < 128 /\ fraction < 2 ^ fraction_bits)%N.
(** (-1)^sign * (fraction / 2^fraction_bits) * 16^(exponent - 64) *)
Definition ibm_number (fraction_bits : N) (sign exponent fraction : N) : Q :=
  ((if (sign =? 0)%N then 1 else -1) * (inject_Z (Z.of_N fraction) / inject_Z (2 ^ Z.of_N fraction_bits))
   * Qpower 16 (Z.of_N exponent - 64))%Q.
(** m * 2^k *)
Definition dyadic (m k : Z) : Q := (inject_Z m * Qpower 2 k)%Q.
(** numbers held exactly: significand below 2^p, exponent from emin on, magnitude below 2^emax *)
Definition holds_exactly (p emin emax : Z) (q : Q) : Prop :=
  exists m k, (q == dyadic m k)%Q /\ Z.abs m < 2 ^ p /\ emin <= k /\ k + p <= emax.
Definition double_holds : Q -> Prop := holds_exactly 53 (-1074) 1024.
Definition single_holds : Q -> Prop := holds_exactly 24 (-149) 128.
(** A rounding to a format: gives numbers of the format, and changes none of them *)
Definition rounding (holds : Q -> Prop) (rnd : Q -> Q) : Prop :=
  (forall q, holds q -> (rnd q == q)%Q) /\ (forall q q', (q == q')%Q -> (rnd q == rnd q')%Q).
