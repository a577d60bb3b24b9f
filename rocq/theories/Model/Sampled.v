(** Model of the values of Uniformly_Sampled fields of PDS4 tables:
    pdr/pds4_tools/reader/read_tables.py:81-185 ([_make_uniformly_sampled_field]).  Powers of
    floats and logarithms are parameters.  The comparison with the last value (175-183) only
    logs a warning; of it, only the access to the last of the values made is modelled. *)
From Coq Require Import QArith.
From Verif.Base Require Import Py Val Float.
From Verif.Model Require Import Types Scaling Pds4Types.
Open Scope Z_scope.

(** ** Python numbers: integers ([EI]) and floats ([EF]) *)
Definition number (v : pv) : res elt := match v with PInt z => Ok (EI z) | PFloat q => Ok (EF (Fin q)) | _ => Err TypeError end.
(** float(x) *)
Definition as_float (x : elt) : res num := match x with EI z => to_float DF64 (inject_Z z) | EF x => Ok x end.
Definition py_add (a b : elt) : res elt :=
  match a, b with EI x, EI y => Ok (EI (x + y)) | _, _ => do x <- as_float a; do y <- as_float b; Ok (EF (fadd x y)) end.
Definition py_mul (a b : elt) : res elt :=
  match a, b with EI x, EI y => Ok (EI (x * y)) | _, _ => do x <- as_float a; do y <- as_float b; Ok (EF (fmul x y)) end.
Definition is_zero (x : num) : bool := match x with Fin q => Qeq_bool q 0 | _ => false end.
Section Foreign.
(** x ** y of floats, math.log10, and what numpy.empty leaves in the array *)
Variable fpow : num -> num -> res num.
Variable log10 : elt -> res num.
Variable fdiv : num -> num -> num.
Variable junk : nat -> elt.
Definition py_pow (a b : elt) : res elt :=
  match a, b with
  | EI x, EI y => if 0 <=? y then Ok (EI (x ^ y)) else do x <- as_float a; do y <- as_float b; do r <- fpow x y; Ok (EF r)
  | _, _ => do x <- as_float a; do y <- as_float b; do r <- fpow x y; Ok (EF r)
  end.
(** data[j] = x, for an array of type object or float64 *)
Definition store (obj : bool) (x : elt) : res elt := if obj then Ok x else do r <- as_float x; Ok (EF r).
(** 110-116 *)
Definition scale_of (field : list (str * pv)) : res str :=
  match dict_get field $"scale" with None => Ok $"linear" | Some (PStr s) => Ok (lower s) | Some _ => Err AttributeError end.
(** 124-137: whether the array is one of objects *)
Definition of_objects (first last : elt) : res bool :=
  match first, last with
  | EI a, EI b => do t <- min_type_list [a; b]; Ok (match t with TObj => true | _ => false end)
  | _, _ => Ok false
  end.
(** 140-148 *)
Fixpoint linear (obj : bool) (n : nat) (current interval : elt) : res (list elt) :=
  match n with
  | O => Ok []
  | S n => do x <- store obj current; do next <- py_add current interval; do rest <- linear obj n next interval; Ok (x :: rest)
  end.
(** 151-161 *)
Definition logarithmic (obj : bool) (n : nat) (x1 interval : elt) : res (list elt) :=
  rmap (fun j => do p <- py_pow interval (EI (Z.of_nat j)); do v <- py_mul x1 p; store obj v) (seq 0 n).
(** 164-176 *)
Definition exponential (obj : bool) (n : nat) (base first interval : elt) : res (list elt) :=
  do log_x1 <- py_pow base first; do log_base <- log10 base;
  rmap (fun j => do s <- py_mul (EI (Z.of_nat j)) interval; do t <- py_add log_x1 s; do l <- log10 t;
                 if is_zero log_base then Err ZeroDivisionError else store obj (EF (fdiv l log_base))) (seq 0 n).
Definition field_number (field : list (str * pv)) (k : str) : res elt :=
  match dict_get field k with None => Err KeyError | Some v => number v end.
(** 81-185 *)
Definition make_uniformly_sampled (records : nat) (field : list (str * pv)) : res (list elt) :=
  do scale <- scale_of field;
  do first <- field_number field $"first_value"; do last <- field_number field $"last_value"; do interval <- field_number field $"interval";
  do obj <- of_objects first last;
  do data <- (if str_eqb scale $"linear" then linear obj records first interval
              else if str_eqb scale $"logarithmic" then logarithmic obj records first interval
              else if str_eqb scale $"exponential" then do base <- field_number field $"base"; exponential obj records base first interval
              else Ok (map junk (seq 0 records)));
  match data with [] => Err IndexError | _ => Ok data end.
End Foreign.
