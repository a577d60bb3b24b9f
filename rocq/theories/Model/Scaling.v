(** Model of special constants and scaling of PDS3 arrays: pdr/_scaling.py:17-181,
    [casting_to_float] of pdr/np_utils.py:55-63 and the PDS3 part of
    Data.get_scaled, pdr/pdr.py:856-912.  Line numbers cite _scaling.py unless said.
    numpy's arithmetic is that of numpy 2 (Python numbers take the type of the
    array they are combined with). *)
From Coq Require Import QArith Qabs.
From Verif.Base Require Import Py Val Numpy Float.
From Verif.Model Require Import Types.
Open Scope nat_scope.

(** ** numpy *)
(** element types of numeric arrays; [DInt signed bytes] *)
Inductive dt := DInt (signed : bool) (bytes : Z) | DF32 | DF64.
Inductive num := Fin (q : Q) | NaN | Inf (negative : bool).
(** an element, and whether it is masked *)
Record cell := mkCell { val : num; masked : bool }.
Record ndarray := mkNd { dtype : dt; elems : arr cell }.
Definition dtype_name (d : dt) : str :=
  match d with
  | DInt s b => (if s then $"int" else $"uint") ++ str_of_nat (Z.to_nat (8 * b))
  | DF32 => $"float32" | DF64 => $"float64"
  end.
(** np.iinfo *)
Definition imin (s : bool) (b : Z) : Z := if s then (- 2 ^ (8 * b - 1))%Z else 0%Z.
Definition imax (s : bool) (b : Z) : Z := if s then (2 ^ (8 * b - 1) - 1)%Z else (2 ^ (8 * b) - 1)%Z.
Definition in_range (s : bool) (b z : Z) : bool := (imin s b <=? z)%Z && (z <=? imax s b)%Z.
(** the integer of that type equal to [z] modulo 2^(8 b) *)
Definition wrap (s : bool) (b z : Z) : Z := ((z - imin s b) mod 2 ^ (8 * b) + imin s b)%Z.
(** np.finfo(...).max *)
Definition max32 : Q := inject_Z ((2 ^ 24 - 1) * 2 ^ 104).
Definition max64 : Q := inject_Z ((2 ^ 53 - 1) * 2 ^ 971).
Definition fmax (d : dt) : Q := match d with DF32 => max32 | _ => max64 end.
Arguments max32 : simpl never. Arguments max64 : simpl never.
Definition round_to (d : dt) : Q -> Q := match d with DF32 => round32 | _ => round64 end.
(** Python numbers *)
Inductive scalar := SI (z : Z) | SF (q : Q).
Definition scalar_q (c : scalar) : Q := match c with SI z => inject_Z z | SF q => q end.
(** the type of (array op number) *)
Definition promote (d : dt) (c : scalar) : dt :=
  match d, c with DInt _ _, SF _ => DF64 | _, _ => d end.
(** a float result, or the "overflow encountered" RuntimeWarning, which
    overflow_wrap makes an error (shown as OverflowError) *)
Definition to_float (d : dt) (q : Q) : res num :=
  let r := round_to d q in if Qle_bool (Qabs r) (fmax d) then Ok (Fin r) else Err OverflowError.
Inductive op := OMul | OAdd.
Definition q_op (o : op) (a b : Q) : Q := match o with OMul => (a * b)%Q | OAdd => (a + b)%Q end.
Definition q_sign (q : Q) : Z := Z.sgn (Qnum q).
(** one element; [d] is the type of the array.  [Qfloor]-free: integer arrays hold
    integers, whose numerator is the value of the reduced fraction *)
Definition int_of (q : Q) : Z := Qnum (Qred q).
Definition elem_op (o : op) (d : dt) (c : scalar) (x : num) : res num :=
  match d, c with
  | DInt s b, SI z =>
      match x with
      | Fin q => Ok (Fin (inject_Z (wrap s b (match o with OMul => int_of q * z | OAdd => int_of q + z end)%Z)))
      | _ => Err TypeError (* an integer array holds integers *)
      end
  | _, _ =>
      let d' := promote d c in
      do c' <- to_float d' (scalar_q c);
      match c', x with
      | Fin cq, Fin q => to_float d' (q_op o (round_to d' q) cq)
      | Fin cq, Inf n =>
          Ok (match o with
              | OAdd => Inf n
              | OMul => match q_sign cq with Z0 => NaN | Zpos _ => Inf n | Zneg _ => Inf (negb n) end
              end)
      | _, _ => Ok NaN
      end
  end.
Definition cell_op (o : op) (d : dt) (c : scalar) (x : cell) : res cell :=
  if masked x then Ok x else do v <- elem_op o d c (val x); Ok (mkCell v false).
(** traversal of an array: the first error in C order *)
Definition traverse {A} (f : list nat -> A -> res A) (a : arr A) : res (arr A) :=
  do l <- rmap (fun k => f (unlin (shape a) k) (at_ a (unlin (shape a) k))) (seq 0 (size a));
  Ok (mkArr (shape a) (fun idx => nth (lin (shape a) idx) l (at_ a idx))).
(** array op number *)
Definition array_op (o : op) (c : scalar) (a : ndarray) : res ndarray :=
  do _ <- match dtype a, c with
          | DInt s b, SI z => if in_range s b z then Ok tt else Err OverflowError
          | _, _ => Ok tt
          end;
  do e <- traverse (fun _ => cell_op o (dtype a) c) (elems a);
  Ok (mkNd (promote (dtype a) c) e).
(** ndarray.astype *)
Definition cast (d d' : dt) (x : num) : num :=
  match d', x with
  | DInt s b, Fin q => Fin (inject_Z (wrap s b (Qround.Qfloor q)))
  | DInt _ _, _ => x
  | _, Fin q => Fin (round_to d' q)
  | _, _ => x
  end.
Definition astype (d' : dt) (a : ndarray) : ndarray :=
  mkNd d' (mkArr (shape (elems a)) (fun idx => let c := at_ (elems a) idx in mkCell (cast (dtype a) d' (val c)) (masked c))).
Definition dt_eqb (a b : dt) : bool :=
  match a, b with
  | DInt s n, DInt s' n' => Bool.eqb s s' && (n =? n')%Z
  | DF32, DF32 | DF64, DF64 => true
  | _, _ => false
  end.
(** storing into an array of type [d] *)
Definition as_dtype (d : dt) (a : ndarray) : ndarray := if dt_eqb (dtype a) d then a else astype d a.
(** Simplification: casts of floats to integers floor and wrap (numpy truncates;
    pdr never makes such a cast), and casts that overflow a float are not infinite. *)

(** ** Factors of the label *)
Inductive factor := FNum (c : scalar) | FList (l : list scalar) | FBad.
Definition scalar_of (v : pv) : option scalar :=
  match v with PInt z => Some (SI z) | PBool b => Some (SI (if b then 1 else 0)%Z) | PFloat q => Some (SF q) | _ => None end.
Definition factor_of (v : pv) : factor :=
  match v with
  | PTuple l => match rmap (fun x => match scalar_of x with Some c => Ok c | None => Err TypeError end) l with
                | Ok cs => FList cs | Err _ => FBad end
  | _ => match scalar_of v with Some c => FNum c | None => FBad end
  end.
(** 147-164: a factor as written in the label block; [dflt] is 1 or 0 *)
Definition label_factor (block : multidict) (key : str) (dflt : Z) : res factor :=
  match md_get block key with
  | None => Ok (FNum (SI dflt))
  | Some v =>
      do v <- match v with PDict d => match dict_get d $"value" with Some x => Ok x | None => Err KeyError end | _ => Ok v end;
      match v with
      | PStr s => if str_in (upper (strip s)) [$"NULL"; $"N/A"; []] then Ok (FNum (SI dflt)) else Ok FBad
      | _ => Ok (factor_of v)
      end
  end.
Definition factor_is (f : factor) (z : Z) : bool := match f with FNum c => Qeq_bool (scalar_q c) (inject_Z z) | _ => false end.
(** np_utils.py:55-63 *)
Definition is_int (f : factor) : bool := match f with FNum (SI _) => true | _ => false end.
Definition casting_to_float (a : ndarray) (scale offset : factor) : bool :=
  match dtype a with DInt _ _ => negb (is_int scale && is_int offset) | _ => false end.

(** ** Scaling *)
(** obj * scale + offset with single numbers *)
Definition mul_add (a : ndarray) (scale offset : scalar) : res ndarray :=
  do m <- array_op OMul scale a; array_op OAdd offset m.
(** obj[ix] of a 3-D array *)
Definition plane (a : ndarray) (i : nat) : ndarray :=
  mkNd (dtype a) (mkArr (tl (shape (elems a))) (fun idx => at_ (elems a) (i :: idx))).
(** planes of different types are promoted to double when they are stacked *)
Definition stack (ps : list ndarray) (sh : list nat) : ndarray :=
  let d := match ps with [] => DF64 | p :: ps' => if forallb (fun p' => dt_eqb (dtype p) (dtype p')) ps' then dtype p else DF64 end in
  let ps := map (as_dtype d) ps in
  mkNd d (mkArr (List.length ps :: sh)
           (fun idx => match idx with
                       | i :: idx' => match nth_error ps i with Some p => at_ (elems p) idx' | None => mkCell NaN true end
                       | [] => mkCell NaN true
                       end)).
(** 110-120: np.rollaxis(np.ma.dstack(planes), 2) puts the planes of a 3-D array back;
    2-D and 1-D arrays gain axes of length 1.  More than 3 axes are not modelled. *)
Definition restack (ps : list ndarray) : res ndarray :=
  match ps with
  | [] => Err ValueError
  | p :: _ =>
      match shape (elems p) with
      | [r; c] => Ok (stack ps [r; c])
      | [c] => Ok (stack (map (fun p => mkNd (dtype p) (mkArr [1; c] (fun idx => at_ (elems p) (tl idx)))) ps) [1; c])
      | [] => Ok (stack (map (fun p => mkNd (dtype p) (mkArr [1; 1] (fun _ => at_ (elems p) []))) ps) [1; 1])
      | _ => Err NotImplementedError_
      end
  end.
Definition first_len (a : ndarray) : option nat := match shape (elems a) with n :: _ => Some n | [] => None end.
(** array op list: the list is an array along the last axis; it must be as long as
    that axis (lengths of 1 are not modelled).  Arrays of both are integers of 64 bits
    or doubles. *)
Definition array_op_list (o : op) (cs : list scalar) (a : ndarray) : res ndarray :=
  let d := match dtype a with
           | DInt _ _ => if forallb (fun c => match c with SI _ => true | _ => false end) cs then DInt true 8 else DF64
           | _ => DF64 end in
  let n := last (shape (elems a)) 0 in
  if negb (List.length cs =? n) then Err ValueError
  else
    do e <- traverse (fun idx => cell_op o d (nth (last idx 0) cs (SI 0))) (elems (as_dtype d a));
    Ok (mkNd d e).
Definition any_op (o : op) (f : factor) (a : ndarray) : res ndarray :=
  match f with FNum c => array_op o c a | FList cs => array_op_list o cs a | FBad => Err TypeError end.
Definition per_plane (a : ndarray) (scale offset : factor) : option (nat * list scalar * list scalar) :=
  match first_len a, scale, offset with
  | Some n, FList s, FList o => if (n =? List.length s) && (List.length s =? List.length o) && (1 <? n) then Some (n, s, o) else None
  | _, _, _ => None
  end.
(** 108-120 [_copy_scale] *)
Definition copy_scale (a : ndarray) (offset scale : factor) : res ndarray :=
  match per_plane a scale offset with
  | Some (n, s, o) =>
      do ps <- rmap (fun i => mul_add (plane a i) (nth i s (SI 0)) (nth i o (SI 0))) (seq 0 n);
      restack ps
  | None => do m <- any_op OMul scale a; any_op OAdd offset m
  end.
(** 123-130 [_inplace_scale]: len() of a number is a TypeError, whatever the array;
    the offset's is taken only if the first two lengths agree.  An in-place
    operation keeps the type of the array. *)
Definition inplace_scale (a : ndarray) (offset scale : factor) : res ndarray :=
  match first_len a, scale with
  | Some n, FList s =>
      match per_plane a scale offset with
      | Some (n, s, o) =>
          do ps <- rmap (fun i => mul_add (plane a i) (nth i s (SI 0)) (nth i o (SI 0))) (seq 0 n);
          Ok (as_dtype (dtype a) (stack ps (tl (shape (elems a)))))
      | None =>
          do _ <- match offset with
                  | FNum _ => if n =? List.length s then Err TypeError else Ok tt
                  | _ => Ok tt
                  end;
          do m <- any_op OMul scale a; do r <- any_op OAdd offset (as_dtype (dtype a) m); Ok (as_dtype (dtype a) r)
      end
  | _, _ => Err TypeError
  end.

(** ** 66-91 [fit_to_scale] *)
Definition unmasked_values (a : ndarray) : list num :=
  map val (filter (fun c => negb (masked c)) (ravel (elems a))).
Fixpoint fold_num (f : Q -> Q -> Q) (l : list num) : res Q :=
  match l with
  | [] => Err ValueError
  | [Fin q] => Ok q
  | Fin q :: l' => do r <- fold_num f l'; Ok (f q r)
  | NaN :: _ => Err ValueError
  | Inf _ :: _ => Err OverflowError
  end.
Definition qmin (a b : Q) : Q := if Qle_bool a b then a else b.
Definition qmax (a b : Q) : Q := if Qle_bool a b then b else a.
(** int(x) *)
Definition trunc (q : Q) : Z := Z.quot (Qnum q) (Zpos (Qden q)).
Definition s_op (o : op) (a b : scalar) : scalar :=
  match a, b with
  | SI x, SI y => SI (match o with OMul => x * y | OAdd => x + y end)%Z
  | _, _ => SF (round64 (q_op o (scalar_q a) (scalar_q b)))
  end.
Definition is_integral (c : scalar) : bool := match c with SI _ => true | SF q => Qeq_bool (inject_Z (trunc q)) q end.
(** bounds of a candidate type *)
Definition type_min (d : dt) : Q := match d with DInt s b => inject_Z (imin s b) | _ => (- fmax d)%Q end.
Definition type_max (d : dt) : Q := match d with DInt s b => inject_Z (imax s b) | _ => fmax d end.
Definition float_candidates : list dt := [DF32; DF64].
Definition int_candidates : list dt :=
  [DInt false 1; DInt false 2; DInt false 4; DInt false 8; DInt true 1; DInt true 2; DInt true 4; DInt true 8].
Definition fits (smin smax : Q) (d : dt) : bool := Qle_bool (type_min d) smin && Qle_bool smax (type_max d).
(** the type chosen for the range [amin, amax] *)
Definition choose_type (floating : bool) (amin amax : Z) (scale offset : scalar) : res dt :=
  let cands := if floating || negb (is_integral (s_op OAdd scale offset)) then float_candidates else int_candidates in
  let bound x := scalar_q (s_op OAdd (s_op OMul (SI x) scale) offset) in
  match find (fits (bound amin) (bound amax)) cands with Some d => Ok d | None => Err TypeError end.
(** 'd' is not among the accepted type codes *)
Definition fit_to_scale (a : ndarray) (scale offset : scalar) : res ndarray :=
  match dtype a with
  | DF64 => Err TypeError
  | d =>
      do lo <- fold_num qmin (unmasked_values a); do hi <- fold_num qmax (unmasked_values a);
      do t <- choose_type (match d with DF32 => true | _ => false end) (trunc lo) (trunc hi) scale offset;
      Ok (astype t a)
  end.
(** 94-105 [overflow_wrap]: its parameters are named (arr, scale, offset), but it is
    called with (obj, offset, scale), so [fit_to_scale] gets them exchanged *)
Definition overflow_wrap (f : ndarray -> factor -> factor -> res ndarray) (a : ndarray) (scale offset : factor) : res ndarray :=
  match f a scale offset with
  | Err OverflowError =>
      match scale, offset with
      | FNum s, FNum o => do a' <- fit_to_scale a s o; f a' scale offset
      | _, _ => Err TypeError
      end
  | r => r
  end.
(** 134-181 [scale_array] given the label block *)
Definition scale_array (block : multidict) (a : ndarray) (inplace : bool) (float_dtype : option dt) : res ndarray :=
  do scale <- label_factor block $"SCALING_FACTOR" 1;
  do offset <- label_factor block $"OFFSET" 0;
  if factor_is scale 1 && factor_is offset 0 then Ok a
  else if inplace && negb (casting_to_float a scale offset) then overflow_wrap inplace_scale a offset scale
  else
    let a := if casting_to_float a scale offset then match float_dtype with Some d => astype d a | None => a end else a in
    overflow_wrap copy_scale a offset scale.

(** ** Special constants *)
(** a constant: a number, or the NaN entered for INVALIDS *)
Inductive const := CNum (c : scalar) | CNan.
Definition const_of (v : pv) : res const :=
  match scalar_of v with Some c => Ok (CNum c) | None => Err TypeError end.
(** (constant in array): the constant takes the type of the array *)
Definition equals_in (d : dt) (c : scalar) (x : num) : bool :=
  match x with
  | Fin q => match d, c with
             | DInt _ _, SI z => Qeq_bool q (inject_Z z)
             | DInt _ _, SF f => Qeq_bool (round64 q) (round64 f)
             | _, _ => Qeq_bool q (round_to d (scalar_q c))
             end
  | _ => false
  end.
Definition is_finite (x : num) : bool := match x with Fin _ => true | _ => false end.
Definition values (a : ndarray) : list num := map val (ravel (elems a)).
(** 31-41 (explicit constants).  A tuple gives its first element; other sequences
    (strings) and mappings are not modelled (TypeError). *)
Definition explicit_constants (block : multidict) : res (list (str * const)) :=
  rmap (fun name => do v <- match md_get block name with
                            | Some (PTuple (x :: _)) => Ok x
                            | Some (PTuple []) => Err IndexError
                            | Some v => Ok v
                            | None => Err KeyError end;
                    do c <- const_of v; Ok (name, c))
    (filter (fun name => match md_get block name with
                         | None => false
                         | Some (PStr s) => negb (str_eqb s $"N/A")
                         | Some _ => true end) PDS3_CONSTANT_NAMES).
(** the constants of datatypes.py:152-213 are Python numbers; whole numbers are taken
    as ints, which makes no difference for arrays of floats *)
Definition implicit_scalar (q : Q) : scalar := if Qeq_bool (inject_Z (int_of q)) q then SI (int_of q) else SF q.
(** 17-52 [find_special_constants] *)
Definition find_special_constants (block : multidict) (a : ndarray) : res (list (str * const)) :=
  do specials <- explicit_constants block;
  if str_eqb (dtype_name (dtype a)) $"uint8" then Ok specials
  else match implicit_constants (dtype_name (dtype a)) with
       | None => Err KeyError
       | Some implicit =>
           let specials := if forallb is_finite (values a) then specials else dict_set specials $"INVALIDS" CNan in
           Ok (fold_left (fun d kv => dict_set d (fst kv) (CNum (implicit_scalar (snd kv))))
                 (filter (fun kv => existsb (equals_in (dtype a) (implicit_scalar (snd kv))) (values a)) implicit) specials)
       end.
(** np.isin(data, constants): exact for integers, otherwise in double precision *)
Definition isin (d : dt) (cs : list const) (x : num) : bool :=
  match x with
  | Fin q =>
      let exact := match d with DInt _ _ => forallb (fun c => match c with CNum (SI _) => true | _ => false end) cs | _ => false end in
      existsb (fun c => match c with
                        | CNum c => if exact then Qeq_bool q (scalar_q c) else Qeq_bool (round64 q) (round64 (scalar_q c))
                        | CNan => false end) cs
  | _ => false
  end.
Definition has_nan (cs : list const) : bool := existsb (fun c => match c with CNan => true | _ => false end) cs.
(** 55-64 [mask_specials]: any earlier mask is replaced *)
Definition mask_specials (a : ndarray) (cs : list const) : ndarray :=
  mkNd (dtype a) (mkArr (shape (elems a)) (fun idx =>
    let x := val (at_ (elems a) idx) in
    mkCell x (isin (dtype a) cs x || (has_nan cs && negb (is_finite x))))).
(** pdr.py:878-900, PDS3, with no constants known beforehand.  [special] is
    special_image_constants of the product (empty for most) *)
Definition get_scaled (special : list (str * const)) (block : multidict) (a : ndarray) (inplace : bool) (float_dtype : option dt)
    : res ndarray :=
  do specials <- match special with [] => find_special_constants block a | _ => Ok special end;
  let a := match specials with [] => a | _ => mask_specials a (map snd specials) end in
  scale_array block a inplace float_dtype.
