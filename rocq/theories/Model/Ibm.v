(** Model of IBM System/360 reals: pdr/np_utils.py:104-134 and
    pdr/pd_utils.py:306-341 [convert_ibm_reals].
    Floating-point numbers are exact rationals; every numpy operation that yields
    a double rounds with [rnd64], conversions to single precision round with
    [rnd32].  Both are parameters. *)
From Coq Require Import QArith Qabs.
From Verif.Base Require Import Py.
Open Scope Z_scope.
(** 2 ** k *)
Definition pow2 (k : Z) : Q := if 0 <=? k then inject_Z (2 ^ k) else / inject_Z (2 ^ (- k)).
Section Ibm.
Variable rnd64 rnd32 : Q -> Q.
(** np_utils.py:104-118 [ibm_to_np] on one element; 16 ** (e - 64) is a power of two *)
Definition ibm_to_np (ibm : N) (sreg ereg : N) (mmask : N) : Q :=
  let sign := 1 - 2 * Z.of_N (N.land (N.shiftr ibm sreg) 1) in
  let e := Z.of_N (N.land (N.shiftr ibm ereg) 127) in
  let mantissa := rnd64 (rnd64 (inject_Z (Z.of_N (N.land ibm mmask))) / inject_Z (2 ^ Z.of_N ereg))%Q in
  let exponent := rnd64 (pow2 (4 * (e - 64))) in
  rnd64 (rnd64 (inject_Z sign * mantissa) * exponent)%Q.
(** np_utils.py:121-134 *)
Definition ibm32_to_np_f32 (ibm : N) : Q := ibm_to_np ibm 31 24 (2 ^ 24 - 1).
Definition ibm64_to_np_f64 (ibm : N) : Q := ibm_to_np ibm 63 56 (2 ^ 56 - 1).
(** pd_utils.py:306-341: one IBM column; [bytes] is the column's BYTES entry *)
Definition f32_max : Q := inject_Z ((2 ^ 24 - 1) * 2 ^ 104).
Definition tiny : Q := / inject_Z (10 ^ 44).
(** lines 327-333: a value is too large or too small for single precision *)
Definition too_wide (converted : list Q) : bool :=
  let big := existsb (fun q => negb (Qle_bool (Qabs q) f32_max)) converted in
  let small := existsb (fun q => negb (Qeq_bool q 0) && negb (Qle_bool tiny (Qabs q))) converted in
  big || small.
Definition convert_ibm_column (bytes : Z) (values : list N) : list Q :=
  if bytes =? 4 then
    let converted := map ibm32_to_np_f32 values in
    if too_wide converted then converted else map rnd32 converted
  else map ibm64_to_np_f64 values.
(** Simplification: the maximum over an empty column (a ValueError in numpy) is
    taken as "not big"; the comparisons are with the decimal value 1e-44. *)
End Ibm.
