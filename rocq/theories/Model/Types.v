(** Model of pdr/datatypes.py:17-199.  Line numbers cite that file. *)
From Coq Require Import QArith.
From Verif.Base Require Import Py.
Open Scope nat_scope.

(** datatypes.py:17-41; sample_bytes is a natural number *)
Definition integer_code (byteorder : str) (signed : bool) (sample_bytes : nat) (for_numpy : bool) : str :=
  let letter := if sample_bytes =? 4 then $"l" else if sample_bytes =? 2 then $"h" else $"b" in
  let letter := if signed then letter else upper letter in
  let letter := if for_numpy && ((sample_bytes =? 4) || (sample_bytes =? 8))
                then (if signed then $"i" else $"u") ++ str_of_nat sample_bytes else letter in
  byteorder ++ letter.
(** datatypes.py:44-48 *)
Definition determine_byte_order (sample_type : str) : str :=
  if existsb (fun s => startswith s sample_type) [$"PC"; $"LSB"; $"VAX"] then $"<" else $">".
(** str.replace(" ", "_") *)
Definition underscored (s : str) : str := map (fun c => if Ascii.eqb c " " then "_"%char else c) s.
(** datatypes.py:51-119 *)
Definition sample_types (sample_type : str) (sample_bytes : nat) (for_numpy : bool) : res str :=
  let st := underscored sample_type in
  if (contains $"INTEGER" st || str_eqb st $"BOOLEAN") && negb (contains $"ASCII" st) then
    Ok (integer_code (determine_byte_order st) (negb (contains $"UNSIGNED" st)) sample_bytes for_numpy)
  else
    let void := if for_numpy then $"V" else $"s" in
    let n := str_of_nat sample_bytes in
    do float <- (if sample_bytes =? 8 then Ok $"d"
                 else if sample_bytes =? 4 then Ok $"f"
                 else if contains $"ASCII" st then Ok []
                 else if contains $"REAL" st || contains $"FLOAT" st then Err NotImplementedError_
                 else Ok []);
    if str_eqb st $"VAX_REAL" && negb (sample_bytes =? 4) then Err NotImplementedError_
    else
      match find (fun kv => str_eqb (fst kv) st)
        [($"IEEE_REAL", $">" ++ float); ($"PC_REAL", $"<" ++ float); ($"FLOAT", $">" ++ float);
         ($"REAL", $">" ++ float); ($"MAC_REAL", $">" ++ float); ($"SUN_REAL", $">" ++ float);
         ($"MSB_BIT_STRING", void ++ n); ($"LSB_BIT_STRING", void ++ n);
         ($"ASCII_REAL", $"S" ++ n); ($"ASCII_INTEGER", $"S" ++ n); ($"DATE", $"S" ++ n);
         ($"CHARACTER", $"S" ++ n); ($"TIME", $"S" ++ n); ($"VOID", void ++ n); ($"BCD", void ++ n);
         ($"BINARY_CODED_DECIMAL", void ++ n); ($"VAX_REAL", $"<u" ++ n); ($"IBM_REAL", $">u" ++ n);
         ($"EBCDIC", $"V" ++ n); ($"EBCDIC_CHARACTER", $"V" ++ n)]
      with
      | Some kv => Ok (snd kv)
      | None => Err KeyError
      end.

(** datatypes.py:122-129 *)
Definition basic_constant_names : list str :=
  [$"INVALID_CONSTANT"; $"MISSING_CONSTANT"; $"INFINITY_CONSTANT"; $"NOT_APPLICABLE_CONSTANT";
   $"NULL_CONSTANT"; $"UNKNOWN_CONSTANT"].
(** datatypes.py:132-142 *)
Definition isis_constant_names : list str :=
  flat_map (fun category => flat_map (fun direction => flat_map (fun entity => map (fun prop =>
      category ++ direction ++ entity ++ prop) [$"NULL"; $"SATURATION"; $"SAT"])
    [$"INST_"; $"REPR_"; []]) [$"HIGH_"; $"LOW_"; []])
  [$"CORE_"; $"BAND_SUFFIX_"; $"SAMPLE_SUFFIX_"; $"LINE_SUFFIX_"; []].
(** datatypes.py:149 *)
Definition PDS3_CONSTANT_NAMES : list str := isis_constant_names ++ basic_constant_names.

(** utils.py:31-37 [read_hex]: big-endian unsigned 32-bit integer, or the IEEE
    single-precision number with those bits (normal numbers only) *)
Definition hex_value (s : str) : option N := parse_digits 16 0 s.
Definition f32_value (bits : N) : Q :=
  let sign := if N.testbit bits 31 then (-1)%Z else 1%Z in
  let e := Z.of_N (N.land (N.shiftr bits 23) 255) in
  let m := Z.of_N (N.land bits 8388607) in
  (inject_Z (sign * (8388608 + m)) * (if (0 <=? e - 150)%Z then inject_Z (2 ^ (e - 150)) else / inject_Z (2 ^ (150 - e))))%Q.

(** datatypes.py:152-213 [IMPLICIT_PDS3_CONSTANTS].  The constants are exact
    rationals; the float ones written in decimal are the decimal values. *)
Definition hexI (s : str) : Q := match hex_value s with Some n => inject_Z (Z.of_N n) | None => 0 end.
Definition hexF (s : str) : Q := match hex_value s with Some n => f32_value n | None => 0 end.
Definition q (z : Z) : Q := inject_Z z.
(** -3.4028226550889044521e38 *)
Definition isis_null_f : Q := inject_Z (-340282265508890445210000000000000000000).
Definition ten32 : Q := inject_Z 100000000000000000000000000000000.
Definition IMPLICIT_PDS3_CONSTANTS : list (str * list (str * Q)) :=
  [($"uint8", [($"NULL", q 0); ($"ISIS_SAT_HIGH", q 255)]);
   ($"int8", []);
   ($"int16", [($"N/A", q (-32768)); ($"UNK", q 32767); ($"ISIS_LOW_INST_SAT", q (-32766));
               ($"ISIS_LOW_REPR_SAT", q (-32767)); ($"ISIS_HIGH_INST_SAT", q (-32765));
               ($"ISIS_HIGH_REPR_SAT", q (-32764))]);
   ($"uint16", [($"NULL", q 0); ($"N/A", q 65533); ($"UNK", q 65534); ($"ISIS_LOW_INST_SAT", q 2);
                ($"ISIS_LOW_REPR_SAT", q 1); ($"ISIS_HIGH_INST_SAT", q 65534);
                ($"ISIS_HIGH_REPR_SAT", q 65535)]);
   ($"int32", [($"N/A", q (-214743648)); ($"UNK", q 2147483647)]);
   ($"int64", [($"N/A", q (-214743648)); ($"UNK", q 2147483647)]);
   ($"uint32", [($"N/A", q 4294967293); ($"UNK", q 4294967294); ($"ISIS_NULL", hexI $"FF7FFFFB");
                ($"ISIS_LOW_INST_SAT", hexI $"FF7FFFFD"); ($"ISIS_LOW_REPR_SAT", hexI $"FF7FFFFC");
                ($"ISIS_HIGH_INST_SAT", hexI $"FF7FFFFE"); ($"ISIS_HIGH_REPR_SAT", hexI $"FF7FFFFF")]);
   ($"float32", [($"NULL", isis_null_f); ($"N/A", - ten32); ($"UNK", ten32);
                 ($"ISIS_LOW_INST_SAT", hexF $"FF7FFFFD"); ($"ISIS_LOW_REPR_SAT", hexF $"FF7FFFFC");
                 ($"ISIS_HIGH_INST_SAT", hexF $"FF7FFFFE"); ($"ISIS_HIGH_REPR_SAT", hexF $"FF7FFFFF")])%Q;
   ($"float64", [($"NULL", isis_null_f)])].
Definition implicit_constants (dtype : str) : option (list (str * Q)) :=
  match find (fun kv => str_eqb (fst kv) dtype) IMPLICIT_PDS3_CONSTANTS with
  | Some kv => Some (snd kv) | None => None end.
