(** What the bytes of PDS4 data mean, independently of the reader. *)
From Coq Require Import QArith Permutation Sorting.Sorted.
From Verif.Base Require Import Py Numpy Float.
From Verif.Model Require Import Scaling Pds4Types Pds4Values.
From Verif.Spec Require Import Scaling Pvl.
Open Scope Z_scope.

(** ** Type names.  SignedMSB4: a signed integer of 4 bytes, most significant first. *)
Inductive byte_order := MSB | LSB.
Inductive format := Integer (signed : bool) | Ieee | Pair.
Definition order_name (o : byte_order) : str := match o with MSB => $"MSB" | LSB => $"LSB" end.
Definition sign_name (s : bool) : str := if s then $"Signed" else $"Unsigned".
Inductive pds4_type : str -> byte_order -> format -> nat -> Prop :=
| t_byte s o : pds4_type (sign_name s ++ $"Byte") o (Integer s) 1
| t_int s o w : In w [2; 4; 8]%nat -> pds4_type (sign_name s ++ order_name o ++ str_of_nat w) o (Integer s) w
| t_single o : pds4_type ($"IEEE754" ++ order_name o ++ $"Single") o Ieee 4
| t_double o : pds4_type ($"IEEE754" ++ order_name o ++ $"Double") o Ieee 8
| t_complex o w : In w [8; 16]%nat -> pds4_type ($"Complex" ++ order_name o ++ str_of_nat w) o Pair w.

(** ** Numbers in bytes *)
(** byte number [i] of [w] holds the digit of this place, to the base 256 *)
Definition place (o : byte_order) (w i : nat) : nat := match o with LSB => i | MSB => w - 1 - i end.
(** [v] written in [w] bytes (negative numbers modulo 256^w) *)
Definition written (o : byte_order) (w : nat) (v : Z) (bs : list ascii) : Prop :=
  length bs = w /\
  forall i, (i < w)%nat -> Z.of_nat (nat_of_ascii (nth i bs "000"%char)) = (v / 256 ^ Z.of_nat (place o w i)) mod 256.
Definition of_width (signed : bool) (w : nat) (v : Z) : Prop :=
  let n := 8 * Z.of_nat w in
  if signed then - 2 ^ (n - 1) <= v < 2 ^ (n - 1) else 0 <= v < 2 ^ n.
(** the floating-point number of sign [s], exponent field [x] (of [e] bits) and fraction
    field [f] (of [m] bits) *)
Definition ieee_fields (e m : Z) (s : bool) (x f : Z) (v : num) : Prop :=
  let bias := 2 ^ (e - 1) - 1 in
  let sgn := if s then -1 else 1 in
  if x =? 2 ^ e - 1 then (f = 0 /\ v = Inf s) \/ (f <> 0 /\ v = NaN)
  else exists q, v = Fin q /\
    if x =? 0 then (q == inject_Z (sgn * f) * two_to (1 - bias - m))%Q
    else (q == inject_Z sgn * (1 + inject_Z f / two_to m) * two_to (x - bias))%Q.
Definition ieee_word (e m u : Z) (v : num) : Prop :=
  exists s x f, u = (if s : bool then 2 ^ (e + m) else 0) + x * 2 ^ m + f /\ 0 <= x < 2 ^ e /\ 0 <= f < 2 ^ m /\ ieee_fields e m s x f v.
Definition float_in (o : byte_order) (w : nat) (v : num) (bs : list ascii) : Prop :=
  exists u, of_width false w u /\ written o w u bs /\ (if Nat.eqb w 4 then ieee_word 8 23 u v else ieee_word 11 52 u v).

(** the element [p] that these bytes hold: an integer, a number, or a complex number whose
    real part comes first *)
Definition pixel_holds (o : byte_order) (f : format) (w : nat) (bs : list ascii) (p : pix) : Prop :=
  match f with
  | Integer s => exists v, p = PElt (EI v) /\ of_width s w v /\ written o w v bs
  | Ieee => exists v, p = PElt (EF v) /\ float_in o w v bs
  | Pair => exists re im, p = PCpx re im /\ float_in o (w / 2) re (firstn (w / 2) bs) /\ float_in o (w / 2) im (skipn (w / 2) bs)
  end.

(** ** Axes: the shape of an array has, at place [i], the size of the axis whose
    sequence_number is [i + 1] *)
Definition axes_shape (axes : list (Z * nat)) (sh : list nat) : Prop :=
  length sh = length axes /\ forall i, (i < length sh)%nat -> In (Z.of_nat i + 1, nth i sh 0%nat) axes.

(** ** Numbers in text *)
Definition blank_char (c : ascii) : Prop := In c [" "; "009"; "010"; "011"; "012"; "013"]%char.
Definition blanks (s : str) : Prop := Forall blank_char s.
(** the text [core] with white space around *)
Definition padded (s core : str) : Prop := exists a c, s = a ++ core ++ c /\ blanks a /\ blanks c.
(** an integer to the base [b]: perhaps a sign, and digits, perhaps grouped with underscores *)
Definition int_text (b : N) (s : str) (z : Z) : Prop := exists core, padded s core /\ signed_numeral b core z.
(** a decimal number without sign: digits, perhaps with a point among them and an exponent
    after them *)
Definition sign_text (neg : bool) (s : str) : Prop := if neg then s = $"-" else s = [] \/ s = $"+".
Inductive exponent_text : str -> Z -> Prop :=
| x_none : exponent_text [] 0
| x_some e neg sg d k : In e ["e"; "E"]%char -> sign_text neg sg -> numeral_value 10 d = Some k ->
    exponent_text ([e] ++ sg ++ d) (if neg then - Z.of_N k else Z.of_N k).
Inductive decimal_text : str -> Q -> Prop :=
| d_text ip fp point ex n e q : (point = $"." \/ (point = [] /\ fp = [])) -> numeral_value 10 (ip ++ fp) = Some n -> exponent_text ex e ->
    (q == inject_Z (Z.of_N n) * Qpower 10 (e - Z.of_nat (length fp)))%Q -> decimal_text (ip ++ point ++ fp ++ ex) q.
(** the double for the exact number [q]: the nearest, or infinity if there is none *)
Definition double_for (q : Q) (v : num) : Prop :=
  match v with
  | Fin r => nearest DF64 q r
  | Inf s => (two_to 1023 < Qabs.Qabs q)%Q /\ (s = true <-> (q < 0)%Q)
  | NaN => False
  end.
(** [t] is [u] without its underscores, each of which must stand between two digits *)
Definition decimal_digit (c : ascii) : Prop := In c ["0"; "1"; "2"; "3"; "4"; "5"; "6"; "7"; "8"; "9"]%char.
Definition ungrouped (u t : str) : Prop :=
  t = filter (fun c => negb (Ascii.eqb c "_"%char)) u /\
  forall a b, u = a ++ "_"%char :: b -> exists a' c d b', a = a' ++ [c] /\ b = d :: b' /\ decimal_digit c /\ decimal_digit d.
Definition spelled (s t : str) : Prop := exists u, padded s u /\ ungrouped u t.
Inductive real_text (s : str) (v : num) : Prop :=
| r_number neg sg body q : spelled s (sg ++ body) -> sign_text neg sg -> decimal_text body q -> double_for (if neg then - q else q)%Q v -> real_text s v
| r_infinite neg sg body : spelled s (sg ++ body) -> sign_text neg sg -> lower body = $"inf" \/ lower body = $"infinity" -> v = Inf neg -> real_text s v
| r_nan neg sg body : spelled s (sg ++ body) -> sign_text neg sg -> lower body = $"nan" -> v = NaN -> real_text s v.
Definition bool_text (s : str) (b : bool) : Prop :=
  exists core, padded s core /\ In core (if b then [$"true"; $"1"] else [$"false"; $"0"]).
(** a value of a field that may leave values out, and the number and mask it becomes: an
    empty value is 0 and masked *)
Definition nullable {A} (nulls : bool) (zero : A) (text : str -> A -> Prop) (s : str) (r : A * bool) : Prop :=
  (nulls = true /\ blanks s /\ r = (zero, true)) \/ (~ (nulls = true /\ blanks s) /\ text s (fst r) /\ snd r = false).
(** no prefix 0x, 0o or 0b, which Python takes to the base 16, 8 and 2 *)
Definition base_prefix (b : N) (s : str) : Prop :=
  exists sg c t, In sg [[]; $"+"; $"-"] /\ s = sg ++ "0"%char :: c :: t /\ In (to_lower c, b) [("x"%char, 16%N); ("o"%char, 8%N); ("b"%char, 2%N)].
Definition prefix_in (b : N) (s : str) : Prop := exists core, padded s core /\ base_prefix b core.
(** a text that does not end with a zero byte *)
Definition no_final_nul (s : str) : Prop := s = [] \/ exists u c, s = u ++ [c] /\ c <> "000"%char.
