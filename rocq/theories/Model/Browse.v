(** Model of browse images: pdr/browsify.py:19-134 (bounds, normalize_range, eightbit),
    137-156 (colorfill_maskedarray), 246-285 (_render_array up to the PIL image) and
    301-379 (choice of bands).  Line numbers cite browsify.py.
    Arrays, element types and integer wrap-around are those of Model/Scaling.v. *)
From Coq Require Import QArith Qabs Qround.
From Verif.Base Require Import Py Numpy Float.
From Verif.Model Require Import Scaling.
Open Scope nat_scope.

(** an array to be shown; [is_ma]: it is an np.ma.MaskedArray *)
Record picture := mkPic { pdt : dt; is_ma : bool; cells : arr cell }.

(** ** Bounds (19-61) *)
Fixpoint insert_q (x : Q) (l : list Q) : list Q :=
  match l with [] => [x] | y :: l' => if Qle_bool x y then x :: l else y :: insert_q x l' end.
Definition sort_q (l : list Q) : list Q := fold_right insert_q [] l.
(** np.percentile (linear interpolation), then .astype(image.dtype).
    Simplification: the interpolation is computed exactly; only the cast ([trunc] of
    Model/Scaling.v for integers) rounds. *)
Definition percentile (d : dt) (vs : list Q) (p : Q) : res Q :=
  if Qle_bool 0 p && Qle_bool p 100 then
    let s := sort_q vs in
    let v := ((p / 100) * inject_Z (Z.of_nat (List.length s - 1)))%Q in
    let i := Z.to_nat (Qfloor v) in
    let t := (v - inject_Z (Qfloor v))%Q in
    let a := nth i s 0%Q in
    let b := nth (S i) s a in
    let x := (a + (b - a) * t)%Q in
    Ok (match d with DInt _ _ => inject_Z (trunc x) | _ => round_to d x end)
  else Err ValueError.
(** image[~image.mask].data, or all of an unmasked array; NaN and infinities (which make
    every bound NaN or infinite) are not modelled: [OverflowError] *)
Definition valid_values (p : picture) : res (list Q) :=
  rmap (fun c => match val c with Fin q => Ok q | _ => Err OverflowError end)
       (filter (fun c => negb (masked c)) (ravel (cells p))).
(** the bounds; [None]: a masked array with nothing to show *)
Definition find_bounds (p : picture) (clip : Q * Q) : res (option (Q * Q)) :=
  do vs <- valid_values p;
  match sort_q vs with
  | [] => if is_ma p then Ok None else Err ValueError
  | least :: _ =>
      do lo <- (if Qeq_bool (fst clip) 0 then Ok least else percentile (pdt p) vs (fst clip));
      do hi <- (if Qeq_bool (snd clip) 0 then Ok (last (sort_q vs) least) else percentile (pdt p) vs (100 - snd clip)%Q);
      Ok (Some (lo, hi))
  end.

(** ** Scaling one element (87-113) *)
(** a float result; [None]: infinite or NaN *)
Definition fl (d : dt) (q : Q) : option Q :=
  let r := round_to d q in if Qle_bool (Qabs r) (fmax d) then Some r else None.
Definition obind {A B} (x : option A) (f : A -> option B) : option B := match x with Some a => f a | None => None end.
(** np.clip *)
Definition clip_q (lo hi x : Q) : Q := let y := if Qle_bool lo x then x else lo in if Qle_bool y hi then y else hi.
(** range_max - range_min = 255, range_min = 0.  Integer arrays are at least 32 bits
    here (see [upcast]). *)
Definition rescale (d : dt) (inplace : bool) (lo hi x : Q) : option Q :=
  let x := clip_q lo hi x in
  match d with
  | DInt s b =>
      let diff := wrap s b (int_of x - int_of lo) in
      let span := wrap s b (int_of hi - int_of lo) in
      if inplace then
        Some (inject_Z (if (span =? 0)%Z then 0 else wrap s b (wrap s b (diff * 255) / span))%Z)
      else if (span =? 0)%Z then None
      else obind (fl DF64 (255 / inject_Z span)) (fun k => fl DF64 (round64 (inject_Z diff) * k))
  | _ =>
      obind (fl d (x - lo)) (fun diff =>
      obind (fl d (hi - lo)) (fun span =>
        if Qeq_bool span 0 then None
        else if inplace then obind (fl d (diff * 255)) (fun m => fl d (m / span))
        else obind (fl d (255 / span)) (fun k => fl d (diff * k))))
  end.
(** 84-86: "scaling was too intense" *)
Definition normalize (d : dt) (inplace nice : bool) (bounds : option (Q * Q)) (x : Q) : option Q :=
  match bounds with
  | None => Some x
  | Some (lo, hi) => if nice && Qeq_bool lo hi then Some x else rescale d inplace lo hi x
  end.
(** 116-134: np.round(...).astype(np.uint8); [None]: a value no byte stands for *)
Definition byte_of (q : Q) : Z := wrap false 1 (half_even q).
Definition eightbit (p : picture) (clip : Q * Q) (inplace nice : bool) : res (list nat -> option Z) :=
  do b <- find_bounds p clip;
  Ok (fun idx => match val (at_ (cells p) idx) with
                 | Fin q => option_map byte_of (normalize (pdt p) inplace nice b q)
                 | _ => None end).

(** ** Rendering (246-285) *)
Definition upcast (p : picture) : picture :=
  match pdt p with
  | DInt s b => if (b <=? 2)%Z then mkPic (DInt true 4) (is_ma p) (cells p) else p
  | _ => p
  end.
Inductive fill := FillNone | FillGray (g : Z) | FillColor (r g b : Z).
Definition channel (c : fill) (k : nat) : Z :=
  match c with FillColor r g b => nth k [r; g; b] 0%Z | FillGray g => g | FillNone => 0%Z end.
(** the array given to PIL; [None] for bytes that depend on hidden data or on the
    platform.  137-156 for a 2-D array. *)
Definition render (p : picture) (clip : Q * Q) (inplace nice : bool) (color : fill) : res (arr (option Z)) :=
  let p := upcast p in
  do e <- eightbit p clip inplace nice;
  let filled k idx := if masked (at_ (cells p) idx) then Some (channel color k) else e idx in
  if is_ma p then
    match color with
    | FillNone => Ok (mkArr (shape (cells p)) (fun idx => if masked (at_ (cells p) idx) then None else e idx))
    | FillGray g => Ok (mkArr (shape (cells p)) (filled 0))
    | FillColor _ _ _ =>
        match shape (cells p) with
        | [h; w] => Ok (mkArr [h; w; 3] (fun idx => match idx with [r; c; k] => filled k [r; c] | _ => None end))
        | [h; w; 3] => Ok (mkArr [h; w; 3] (fun idx => match idx with [r; c; k] => filled k [r; c; k] | _ => None end))
        | _ => Err ValueError
        end
    end
  else Ok (mkArr (shape (cells p)) e).
(** 203-204: the defaults of the image_clip argument *)
Definition browse_clip (image_clip : option (Q * Q)) : (Q * Q) * bool :=
  match image_clip with None => ((1, 1)%Q, true) | Some c => (c, false) end.

(** ** Bands (301-379) *)
Inductive band_choice := MiddleBand | BandIx (i : Z) | Burst.
Inductive formatted (A : Type) := OneImage (a : arr A) | Images (l : list (arr A)).
Arguments OneImage {A}. Arguments Images {A}.
Section Bands.
  Context {A : Type}.
  (** obj[i] of a 3-D array *)
  Definition band (a : arr A) (i : nat) : arr A := mkArr (tl (shape a)) (fun idx => at_ a (i :: idx)).
  Definition get_band (a : arr A) (i : Z) : res (arr A) :=
    let n := Z.of_nat (hd 0 (shape a)) in
    let j := if (i <? 0)%Z then (i + n)%Z else i in
    if (0 <=? j)%Z && (j <? n)%Z then Ok (band a (Z.to_nat j)) else Err IndexError.
  (** a.swapaxes(0, ax) *)
  Definition swap0 (ax : nat) {B} (l : list B) : list B :=
    match ax, l with
    | 1, [a; b; c] => [b; a; c]
    | 2, [a; b; c] => [c; b; a]
    | _, _ => l
    end.
  Definition swapaxes (ax : nat) (a : arr A) : arr A :=
    mkArr (swap0 ax (shape a)) (fun idx => at_ a (swap0 ax idx)).
  (** np.dstack of three 2-D arrays *)
  Definition dstack3 (x y z : arr A) : arr A :=
    mkArr (shape x ++ [3]) (fun idx => match idx with
      | [r; c; k] => at_ (nth k [x; y; z] x) [r; c] | _ => at_ x idx end).
  Definition as_rgb (a : arr A) (channels : Z * Z * Z) : res (arr A) :=
    let '(i, j, k) := channels in
    do x <- get_band a i; do y <- get_band a j; do z <- get_band a k; Ok (dstack3 x y z).
  (** 360-379 [_format_as_single_band] *)
  Definition middle_ix (n : nat) : Z := half_even (Z.of_nat n # 2).
  Definition single_band (b : band_choice) (a : arr A) : res (arr A) :=
    let mid := get_band a (middle_ix (hd 0 (shape a))) in
    match b with
    | BandIx i => match get_band a i with Err IndexError => mid | r => r end
    | _ => mid
    end.
  (** 323-357 [_format_multiband_image] (slice_axis 0, 1 or 2) *)
  Definition format_multiband (a : arr A) (b : band_choice) (override : bool) (slice_axis : nat)
      (rgb : option (Z * Z * Z)) : res (formatted A) :=
    let a := if slice_axis =? 0 then a else swapaxes slice_axis a in
    match rgb with
    | Some ch => do x <- as_rgb a ch; Ok (OneImage x)
    | None =>
        let n := hd 0 (shape a) in
        if negb ((n =? 3) || (n =? 4)) || override then
          match b with
          | Burst => Ok (Images (map (band a) (seq 0 n)))
          | _ => do x <- single_band b a; Ok (OneImage x)
          end
        else do x <- as_rgb a (0, 1, 2)%Z; Ok (OneImage x)
    end.
End Bands.
