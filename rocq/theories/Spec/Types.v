(** What the PDS3 type names mean; numpy's dtype strings are in Base/Numpy.v. *)
From Coq Require Import QArith.
From Verif.Base Require Export Py Numpy.
Open Scope nat_scope.
(** PDS3 Standards Reference, chapter 3: byte orders of the data types *)
Definition little_endian_name (st : str) : Prop :=
  exists p rest, In p [$"PC"; $"LSB"; $"VAX"] /\ st = p ++ rest.
Definition unsigned_name (st : str) : Prop := exists a b, st = a ++ $"UNSIGNED" ++ b.
Definition integer_name (st : str) : Prop :=
  (st = $"BOOLEAN" \/ exists a b, st = a ++ $"INTEGER" ++ b) /\ ~ exists a b, st = a ++ $"ASCII" ++ b.
Definition big_real_names : list str := [$"IEEE_REAL"; $"FLOAT"; $"REAL"; $"MAC_REAL"; $"SUN_REAL"].
Definition text_names : list str := [$"ASCII_REAL"; $"ASCII_INTEGER"; $"DATE"; $"CHARACTER"; $"TIME"].
Definition opaque_names : list str :=
  [$"MSB_BIT_STRING"; $"LSB_BIT_STRING"; $"VOID"; $"BCD"; $"BINARY_CODED_DECIMAL"; $"EBCDIC"; $"EBCDIC_CHARACTER"].
Definition known_names : list str :=
  big_real_names ++ [$"PC_REAL"; $"VAX_REAL"; $"IBM_REAL"] ++ text_names ++ opaque_names.

(** Range of a numpy type by name *)
Definition int_range (dtype : str) : option (Z * Z) :=
  match find (fun kv => str_eqb (fst kv) dtype)
    [($"uint8", (0, 2^8 - 1)); ($"int8", (-2^7, 2^7 - 1)); ($"uint16", (0, 2^16 - 1)); ($"int16", (-2^15, 2^15 - 1));
     ($"uint32", (0, 2^32 - 1)); ($"int32", (-2^31, 2^31 - 1)); ($"uint64", (0, 2^64 - 1)); ($"int64", (-2^63, 2^63 - 1))]%Z
  with Some kv => Some (snd kv) | None => None end.
(** largest finite single and double precision numbers *)
Definition f32_max : Q := inject_Z ((2 ^ 24 - 1) * 2 ^ 104).
Definition f64_max : Q := inject_Z ((2 ^ 53 - 1) * 2 ^ 971).
