(** Model of IMAGE and QUBE reading: pdr/loaders/image.py:20-212 and
    pdr/loaders/queries.py:45-252.  Label numbers are natural numbers.
    Divisions of byte counts, done in floating point by the code, are exact. *)
From Verif.Base Require Import Py Numpy.
From Verif.Model Require Import Types.
Open Scope nat_scope.

Inductive side := PREFIX | SUFFIX.
Inductive axis := LINE | SAMPLE | BAND.
Definition side_eqb a b := match a, b with PREFIX, PREFIX | SUFFIX, SUFFIX => true | _, _ => false end.
Definition axis_eqb a b := match a, b with LINE, LINE | SAMPLE, SAMPLE | BAND, BAND => true | _, _ => false end.
Definition axis_name (a : axis) : str := match a with LINE => $"LINE" | SAMPLE => $"SAMPLE" | BAND => $"BAND" end.
Inductive itembytes := One (n : nat) | Many (l : list nat).
(** The padding keywords of a label block: {AXIS}_{SIDE}_ITEM_BYTES,
    {SIDE}_ITEMS and LINE_{SIDE}_BYTES *)
Record fixes := mkFixes {
  item_bytes : axis -> side -> option itembytes;
  items : side -> option (list nat);
  line_bytes : side -> option nat }.

(** The image properties dict.  [planes s a] is the entry "{s}_{a}s", [pad] the
    entries rowpad, colpad and bandpad, [linefix] line_prefix_pix and
    line_suffix_pix. *)
Record props := mkProps {
  bpp : nat; is_vax : bool; styp : option str;
  nrows : option nat; ncols : option nat; nbands : option nat;
  bst : option str; axnames : option (list str);
  planes : side -> axis -> option nat; pad : axis -> nat;
  linefix : side -> option nat; linepad : nat }.

Fixpoint rfold {S A} (f : S -> A -> res S) (s : S) (l : list A) : res S :=
  match l with [] => Ok s | a :: l' => do s' <- f s a; rfold f s' l' end.
(** list.index *)
Fixpoint index_of (x : str) (l : list str) : res nat :=
  match l with
  | [] => Err ValueError
  | y :: l' => if str_eqb x y then Ok 0 else do i <- index_of x l'; Ok (S i)
  end.
Definition nth_res {A} (l : list A) (n : nat) : res A :=
  match nth_error l n with Some a => Ok a | None => Err IndexError end.
(** fix_pix = fixbytes / BYTES_PER_PIXEL, refused unless integral (queries.py:121-125, 135-140) *)
Definition fix_pix (fixbytes bpp : nat) : res nat :=
  if bpp =? 0 then Err ZeroDivisionError
  else if fixbytes mod bpp =? 0 then Ok (fixbytes / bpp) else Err NotImplementedError_.
Definition all_equal (l : list nat) : bool :=
  match l with [] => true | x :: l' => forallb (Nat.eqb x) l' end.
(** queries.py:88-128 [extract_axplane_metadata]; one turn of the loop *)
Definition axplane_step (b : fixes) (bpp : nat) (axnames : option (list str))
    (st : (side -> axis -> option nat) * (axis -> nat)) (axside : axis * side)
    : res ((side -> axis -> option nat) * (axis -> nat)) :=
  let '(planes, pad) := st in
  let '(ax, sd) := axside in
  match item_bytes b ax sd with
  | None => Ok st
  | Some ib =>
    match items b sd, axnames with
    | None, _ => Err ValueError
    | _, None => Err ValueError
    | Some itemcount, Some names =>
      do fixbytes <- match ib with
                     | Many l => if all_equal l then Ok (fold_right Nat.add 0 l) else Err NotImplementedError_
                     | One n => do i <- index_of (axis_name ax) names; do c <- nth_res itemcount i; Ok (c * n)
                     end;
      do n <- fix_pix fixbytes bpp;
      Ok (fun s a => if side_eqb s sd && axis_eqb a ax then Some n else planes s a,
          fun a => if axis_eqb a ax then pad a + n else pad a)
    end
  end.
Definition axplane_metadata (b : fixes) (bpp : nat) (axnames : option (list str)) :=
  rfold (axplane_step b bpp axnames) (fun _ _ => None, fun _ => 0)
    [(BAND, PREFIX); (BAND, SUFFIX); (LINE, PREFIX); (LINE, SUFFIX); (SAMPLE, PREFIX); (SAMPLE, SUFFIX)].
(** queries.py:131-146 [extract_linefix_metadata] *)
Definition linefix_step (b : fixes) (bpp : nat) (st : (side -> option nat) * nat) (sd : side) : res ((side -> option nat) * nat) :=
  match line_bytes b sd with
  | None | Some O => Ok st
  | Some fixbytes =>
    do n <- fix_pix fixbytes bpp;
    Ok (fun s => if side_eqb s sd then Some n else fst st s, snd st + n)
  end.
Definition linefix_metadata (b : fixes) (bpp : nat) :=
  rfold (linefix_step b bpp) (fun _ => None, 0) [PREFIX; SUFFIX].

(** An IMAGE block.  SAMPLE_TYPE "" stands for a missing one. *)
Record image_block := mkImage {
  SAMPLE_BITS : nat; SAMPLE_TYPE : str; LINES : nat; LINE_SAMPLES : nat;
  BANDS : option nat; BAND_STORAGE_TYPE : option str; IFIXES : fixes }.
(** queries.py:205-220 [im_sample_type], [base_sample_info] *)
Definition im_sample_type (b : image_block) : res (option str) :=
  match SAMPLE_TYPE b with
  | [] => Ok None
  | t => do s <- sample_types t (SAMPLE_BITS b / 8) true; Ok (Some s)
  end.
(** queries.py:223-253 [generic_image_properties] *)
Definition generic_image_properties (b : image_block) : res props :=
  do st <- im_sample_type b;
  let bpp := SAMPLE_BITS b / 8 in
  do nb <- match BANDS b with
           | Some n => match BAND_STORAGE_TYPE b with
                       | None => if 1 <? n then Err ValueError else Ok (n, None)
                       | t => Ok (n, t)
                       end
           | None => Ok (1, None)
           end;
  do ap <- axplane_metadata (IFIXES b) bpp None;
  do lf <- linefix_metadata (IFIXES b) bpp;
  Ok (mkProps bpp (str_eqb (SAMPLE_TYPE b) $"VAX_REAL") st (Some (LINES b)) (Some (LINE_SAMPLES b)) (Some (fst nb)) (snd nb)
        None (fst ap) (snd ap) (fst lf) (snd lf)).

(** An ISIS2 QUBE block; a nested CORE group is not modelled (its keywords are
    read from the CORE group instead).  [CORE_ITEMS] has one entry per axis. *)
Record qube_block := mkQube {
  CORE_ITEM_BYTES : nat; CORE_ITEM_TYPE : str; AXIS_NAME : option (list str); CORE_ITEMS : list nat;
  QBST : option str; QFIXES : fixes }.
(** zip(axnames, CORE_ITEMS), each setting nrows, ncols or nbands; KeyError on another axis name *)
Fixpoint assign_axes (names : list str) (counts : list nat) (st : option nat * option nat * option nat)
    : res (option nat * option nat * option nat) :=
  match names, counts with
  | a :: names', c :: counts' =>
    let '(r, k, n) := st in
    if str_eqb a $"LINE" then assign_axes names' counts' (Some c, k, n)
    else if str_eqb a $"SAMPLE" then assign_axes names' counts' (r, Some c, n)
    else if str_eqb a $"BAND" then assign_axes names' counts' (r, k, Some c)
    else Err KeyError
  | _, _ => Ok st
  end.
(** queries.py:70-83: storage order from the axis names, first axis fastest *)
Definition storage_of_axes (names : list str) : res str :=
  if list_eq_dec str_eq_dec (rev names) [$"BAND"; $"LINE"; $"SAMPLE"] then Ok $"BAND_SEQUENTIAL"
  else if list_eq_dec str_eq_dec (rev names) [$"LINE"; $"SAMPLE"; $"BAND"] then Ok $"SAMPLE_INTERLEAVED"
  else if list_eq_dec str_eq_dec (rev names) [$"LINE"; $"BAND"; $"SAMPLE"] then Ok $"LINE_INTERLEAVED"
  else Err KeyError.
(** queries.py:45-87 [generic_qube_properties] *)
Definition generic_qube_properties (b : qube_block) : res props :=
  let bpp := CORE_ITEM_BYTES b in
  do st <- sample_types (CORE_ITEM_TYPE b) bpp false;
  do ax <- match AXIS_NAME b with
           | Some names => assign_axes names (CORE_ITEMS b) (None, None, None)
           | None => do r <- nth_res (CORE_ITEMS b) 2; do c <- nth_res (CORE_ITEMS b) 0; Ok (Some r, Some c, None)
           end;
  do t <- match QBST b, AXIS_NAME b with
          | Some t, _ => Ok t
          | None, Some names => storage_of_axes names
          | None, None => Ok $"ISIS2_QUBE"
          end;
  do ap <- axplane_metadata (QFIXES b) bpp (AXIS_NAME b);
  do lf <- linefix_metadata (QFIXES b) bpp;
  Ok (mkProps bpp (str_eqb (CORE_ITEM_TYPE b) $"VAX_REAL") (Some st) (fst (fst ax)) (snd (fst ax)) (snd ax) (Some t)
        (AXIS_NAME b) (fst ap) (snd ap) (fst lf) (snd lf)).

Definition key {A} (o : option A) : res A := match o with Some a => Ok a | None => Err KeyError end.
(** queries.py:154-175 [check_fix_validity] *)
Definition check_fix_validity (p : props) : res unit :=
  if (0 <? linepad p) && (0 <? pad p LINE + pad p SAMPLE + pad p BAND) then Err NotImplementedError_
  else if 1 <? List.length (filter (Nat.ltb 0) [pad p LINE; pad p SAMPLE; pad p BAND]) then Err NotImplementedError_
  else if (0 <? linepad p) && match bst p with None => false | Some t => negb (str_eqb t $"LINE_INTERLEAVED") end then
    do n <- key (nbands p); if 1 <? n then Err NotImplementedError_ else Ok tt
  else Ok tt.
(** queries.py:190-203 [get_image_properties]: the pixel count *)
Definition pixel_count (p : props) : res nat :=
  do _ <- check_fix_validity p;
  do r <- key (nrows p); do c <- key (ncols p); do b <- key (nbands p);
  Ok ((r + pad p LINE) * (c + pad p SAMPLE + linepad p) * (b + pad p BAND)).

(** An open file, seeked to the start byte: the remaining bytes, and whether
    [decompress] gave a compressed or in-memory stream rather than a plain file *)
Record stream := mkStream { rest : list ascii; in_memory : bool }.

Section Pixels.
  Variable A : Type.
  (** the value of an item with a dtype string and its bytes *)
  Variable dec : str -> list ascii -> A.
  (** vax.from_vax32, elementwise *)
  Variable from_vax32 : A -> A.

  (** np.frombuffer: 1-D array of whole items *)
  Definition of_buffer (dt : str) (w : nat) (bs : list ascii) : arr A :=
    mkArr [List.length bs / w] (fun idx => dec dt (firstn w (skipn (hd 0 idx * w) bs))).
  (** np_utils.py:72-93 [np_from_buffered_io] with a count *)
  Definition np_from_buffered_io (f : stream) (dt : str) (w count : nat) : res (arr A) :=
    if in_memory f then
      let bs := firstn (count * w) (rest f) in
      if List.length bs mod w =? 0 then Ok (of_buffer dt w bs) else Err ValueError
    else Ok (of_buffer dt w (firstn (Nat.min count (List.length (rest f) / w) * w) (rest f))).
  (** image.py:42-53 [make_format_specifications]: dtype and its item size *)
  Definition format_dtype (p : props) : res (str * nat) :=
    match styp p with
    | None => Err TypeError
    | Some s => match numpy_meaning s with Some m => Ok (s, t_size m) | None => Err TypeError end
    end.
  Definition pix (o : option nat) : nat := match o with Some n => n | None => 0 end.
  (** image.py:56-76 *)
  Definition extract_single_band_linefix (image : arr A) (p : props) (r c : nat)
      : res (arr A * option (arr A) * option (arr A)) :=
    if linepad p =? 0 then Ok (image, None, None)
    else
      do image <- reshape [r; c + linepad p] image;
      let '(suffix, image) :=
        if 0 <? pix (linefix p SUFFIX)
        then (Some (pyslice 1 (s_from_neg (pix (linefix p SUFFIX))) image),
              pyslice 1 (s_to_neg (pix (linefix p SUFFIX))) image)
        else (None, image) in
      let '(prefix, image) :=
        if 0 <? pix (linefix p PREFIX)
        then (Some (pyslice 1 (s_to (pix (linefix p PREFIX))) image),
              pyslice 1 (s_from (pix (linefix p PREFIX))) image)
        else (None, image) in
      Ok (image, prefix, suffix).
  (** image.py:79-83 *)
  Definition convert_if_vax (image : arr A) (p : props) : arr A :=
    if is_vax p then map_arr from_vax32 image else image.
  (** image.py:186-212 [extract_axplanes]; the planes are listed by side and axis.
      On 2-D images axis numbers are one less; the band axis is then none (-1). *)
  Definition axplanes_step (p : props) (st : arr A * list (side * axis * arr A)) (sa : side * axis)
      : arr A * list (side * axis * arr A) :=
    let '(image, planes_) := st in
    let '(sd, ax) := sa in
    match planes p sd ax with
    | None => st
    | Some count =>
      let axn := match ax with BAND => 0 | LINE => 1 | SAMPLE => 2 end in
      let axn := if List.length (shape image) =? 2 then (match axn with 0 => None | S n => Some n end) else Some axn in
      match axn with
      | None => (image, planes_ ++ [(sd, ax, image)])
      | Some axn =>
        let '(pl, im) :=
          match sd with
          | PREFIX => (pyslice axn (s_to count) image, pyslice axn (s_from count) image)
          | SUFFIX => (pyslice axn (s_from_neg count) image, pyslice axn (s_to_neg count) image)
          end in
        (im, planes_ ++ [(sd, ax, pl)])
      end
    end.
  Definition extract_axplanes (image : arr A) (p : props) : arr A * list (side * axis * arr A) :=
    fold_left (axplanes_step p)
      [(PREFIX, LINE); (PREFIX, SAMPLE); (PREFIX, BAND); (SUFFIX, LINE); (SUFFIX, SAMPLE); (SUFFIX, BAND)]
      (image, []).
  Record loaded := mkLoaded {
    l_image : arr A; l_planes : list (side * axis * arr A); l_prefix : option (arr A); l_suffix : option (arr A) }.
  (** image.py:86-112 *)
  Definition process_single_band_image (f : stream) (p : props) (pixels r c : nat) : res loaded :=
    do dw <- format_dtype p;
    do image <- np_from_buffered_io f (fst dw) (snd dw) pixels;
    do x <- extract_single_band_linefix image p r c;
    let '(image, prefix, suffix) := x in
    let image := convert_if_vax image p in
    do image <- reshape [r + pad p LINE; c + pad p SAMPLE] image;
    let '(image, planes) := extract_axplanes image p in
    Ok (mkLoaded image planes prefix suffix).
  (** image.py:115-134 *)
  Definition extract_bil_linefix (image : arr A) (p : props) (r : nat)
      : res (arr A * option (arr A) * option (arr A)) :=
    if linepad p =? 0 then Ok (image, None, None)
    else if r =? 0 then Err ZeroDivisionError
    else
      do image <- reshape [r; size image / r] image;
      let '(suffix, image) :=
        match linefix p SUFFIX with
        | Some n => (Some (pyslice 1 (s_from_neg n) image), pyslice 1 (s_to_neg n) image)
        | None => (None, image)
        end in
      let '(prefix, image) :=
        match linefix p PREFIX with
        | Some n => (Some (pyslice 1 (s_to n) image), pyslice 1 (s_from n) image)
        | None => (None, image)
        end in
      Ok (image, prefix, suffix).
  (** image.py:137-183; an unknown storage type is taken as BAND_SEQUENTIAL *)
  Definition process_multiband_image (f : stream) (p : props) (pixels r c b : nat) : res loaded :=
    do dw <- format_dtype p;
    do image <- np_from_buffered_io f (fst dw) (snd dw) pixels;
    let image := convert_if_vax image p in
    let bands := b + pad p BAND in
    let lines := r + pad p LINE in
    let samples := c + pad p SAMPLE in
    let is s := match bst p with Some t => str_eqb t s | None => false end in
    do x <- (if is $"SAMPLE_INTERLEAVED" then
               do image <- reshape [lines; samples; bands] image; Ok (moveaxis_2_0 image, None, None)
             else if is $"LINE_INTERLEAVED" then
               do x <- extract_bil_linefix image p r;
               let '(image, prefix, suffix) := x in
               do image <- reshape [lines; bands; samples] image;
               Ok (moveaxis_0_1 image, prefix, suffix)
             else
               do image <- reshape [bands; lines; samples] image; Ok (image, None, None));
    let '(image, prefix, suffix) := x in
    let '(image, planes) := extract_axplanes image p in
    Ok (mkLoaded image planes prefix suffix).
  (** image.py:20-28: the loaded parts *)
  Definition load_pixels (p : props) (f : stream) : res loaded :=
    do pixels <- pixel_count p;
    do r <- key (nrows p); do c <- key (ncols p); do b <- key (nbands p);
    if b =? 1 then process_single_band_image f p pixels r c
    else process_multiband_image f p pixels r c b.
  (** image.py:20-39 [read_image]; None is Python's None *)
  Definition read_image (name : str) (p : props) (file : list ascii) (in_memory : bool) (start_byte : nat)
      : res (option (arr A)) :=
    do l <- load_pixels p (mkStream (skipn start_byte file) in_memory);
    Ok (if contains $"PREFIX" name then l_prefix l
        else if contains $"SUFFIX" name then l_suffix l
        else Some (l_image l)).
End Pixels.
