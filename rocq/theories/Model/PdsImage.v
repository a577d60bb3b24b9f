(** Model of loading an IMAGE or QUBE object of a PDS3 product from its block and its file:
    pdr/loaders/datawrap.py:42-103 ([Loader], [ReadImage]), pdr/loaders/queries.py:45-87, 90-146,
    170-181, 205-258 (the keywords they read), 394-428, 888-898 and pdr/loaders/image.py:20-39, and
    of [get_scaled] of the result (pdr/pdr.py:856-900).  None of the special cases of
    pdr/formats applies. *)
From Coq Require Import QArith.
From Verif.Base Require Import Py Val Numpy.
From Verif.Model Require Import Types Scaling Pds4Types Array Position Image.
From Verif.Model Require Import Pvl.
From Verif.Model Require Objects.
Open Scope nat_scope.

(** ** Keywords.  Simplification: counts are natural numbers (negative ones and floats are
    errors here), and a value of another type is an error even where Python would not
    have used it. *)
Definition count_of (v : pv) : res nat := match v with PInt z => if (z <? 0)%Z then Err ValueError else Ok (Z.to_nat z) | _ => Err TypeError end.
Definition text_of (v : pv) : res str := match v with PStr s => Ok s | _ => Err TypeError end.
(** block.get(key), None if there is none *)
Definition given {A} (f : pv -> res A) (m : multidict) (k : str) : res (option A) :=
  match md_get m k with None | Some PNone => Ok None | Some v => do a <- f v; Ok (Some a) end.
(** block[key] *)
Definition required {A} (f : pv -> res A) (m : multidict) (k : str) : res A :=
  match md_get m k with None => Err KeyError | Some v => f v end.
Definition counts_of (v : pv) : res (list nat) := match v with PTuple l => rmap count_of l | _ => Err TypeError end.
(** queries.py:111-119: a sequence of item sizes, or one *)
Definition item_bytes_of (v : pv) : res itembytes :=
  match v with PTuple _ => do l <- counts_of v; Ok (Many l) | _ => do n <- count_of v; Ok (One n) end.
Definition side_name (s : side) : str := match s with PREFIX => $"PREFIX" | SUFFIX => $"SUFFIX" end.
(** queries.py:96-98, 133-134: the padding keywords of a block *)
Definition axis_item_bytes (m : multidict) (a : axis) (s : side) : res (option itembytes) :=
  given item_bytes_of m (axis_name a ++ $"_" ++ side_name s ++ $"_ITEM_BYTES").
Definition fixes_of (m : multidict) : res fixes :=
  do bp <- axis_item_bytes m BAND PREFIX; do bs <- axis_item_bytes m BAND SUFFIX;
  do lp <- axis_item_bytes m LINE PREFIX; do ls <- axis_item_bytes m LINE SUFFIX;
  do sp <- axis_item_bytes m SAMPLE PREFIX; do ss <- axis_item_bytes m SAMPLE SUFFIX;
  do ip <- given counts_of m $"PREFIX_ITEMS"; do is_ <- given counts_of m $"SUFFIX_ITEMS";
  do fp <- given count_of m $"LINE_PREFIX_BYTES"; do fs <- given count_of m $"LINE_SUFFIX_BYTES";
  Ok (mkFixes
        (fun a s => match a, s with BAND, PREFIX => bp | BAND, SUFFIX => bs | LINE, PREFIX => lp | LINE, SUFFIX => ls
                                  | SAMPLE, PREFIX => sp | SAMPLE, SUFFIX => ss end)
        (fun s => match s with PREFIX => ip | SUFFIX => is_ end)
        (fun s => match s with PREFIX => fp | SUFFIX => fs end)).
(** queries.py:213-253: the keywords of an IMAGE.  SAMPLE_TYPE "" stands for a missing one *)
Definition image_of (m : multidict) : res image_block :=
  do bits <- required count_of m $"SAMPLE_BITS";
  do ty <- given text_of m $"SAMPLE_TYPE";
  do nl <- required count_of m $"LINES"; do ns <- required count_of m $"LINE_SAMPLES";
  do nb <- (if md_has m $"BANDS" then do n <- required count_of m $"BANDS"; Ok (Some n) else Ok None);
  do st <- (if md_has m $"BANDS" then given text_of m $"BAND_STORAGE_TYPE" else Ok None);
  do f <- fixes_of m;
  Ok (mkImage bits (match ty with Some t => t | None => [] end) nl ns nb st f).
(** queries.py:45-68: the keywords of an ISIS2 QUBE, some of which may be in a CORE group *)
Definition qube_of (m : multidict) : res qube_block :=
  do use <- match md_get m $"CORE" with
            | None => Ok m
            | Some (PMulti c) | Some (PDict c) => Ok c
            | Some _ => Err AttributeError
            end;
  do w <- required count_of use $"CORE_ITEM_BYTES"; do ty <- required text_of use $"CORE_ITEM_TYPE";
  do names <- match md_get m $"AXIS_NAME" with
              | Some (PTuple l) => do l <- rmap text_of l; Ok (Some l)
              | Some PNone | None =>
                  match md_get use $"AXIS_NAME" with
                  | Some (PTuple l) => do l <- rmap text_of l; Ok (Some l)
                  | None => Ok None
                  | Some _ => Err KeyError
                  end
              | Some _ => Err KeyError
              end;
  do counts <- required counts_of use $"CORE_ITEMS";
  do st <- given text_of m $"BAND_STORAGE_TYPE";
  do f <- fixes_of m;
  Ok (mkQube w ty names counts st f).
(** queries.py:205-220 as queries of a QUBE: SAMPLE_BITS is 0 if missing *)
Definition sample_type_query (m : multidict) : res unit :=
  do bits <- given count_of m $"SAMPLE_BITS"; do ty <- given text_of m $"SAMPLE_TYPE";
  match ty with
  | None | Some [] => Ok tt
  | Some t => do _ <- sample_types t (match bits with Some n => n / 8 | None => 0 end) true; Ok tt
  end.
(** queries.py:170-181 [check_if_qube] before [generic_image_properties] *)
Definition properties_of (m : multidict) (name : str) : res props :=
  if contains $"QUBE" name then do _ <- sample_type_query m; do q <- qube_of m; generic_qube_properties q
  else do b <- image_of m; generic_image_properties b.

(** ** Pixels *)
Definition np_value (dt : str) (bs : list ascii) : Array.cell :=
  match numpy_meaning dt with Some t => np_cell t bs | None => CBytes bs end.
Section Vax.
(** vax.from_vax32 of one element: another library's *)
Variable from_vax32 : Array.cell -> Array.cell.
(** the loader.  [in_memory]: the file is compressed, [file] is what it expands to, and
    [disk_size] is its size *)
Definition load_image (record_bytes : pv) (m : multidict) (target : pv) (name : str) (file : list ascii) (in_memory : bool) (disk_size : Z)
    : res (option (arr Array.cell)) :=
  do start <- data_start_byte record_bytes (Some m) target disk_size;
  do p <- properties_of m name;
  read_image Array.cell np_value from_vax32 name p file in_memory (Z.to_nat start).
(** ... of a product whose objects are [st] (see Model/Objects).  Identifiers that the label
    does not give are empty strings *)
Definition load_object (o : order) (label : multidict) (params : list str) (load : pv -> res (list (str * pv))) (st : Objects.found)
    (name : str) (file : list ascii) (in_memory : bool) (disk_size : Z) : res (option (arr Array.cell)) :=
  do b <- Objects.get_block o label params load st name;
  match b with
  | PMulti m | PDict m =>
      load_image (match Objects.mget o label params $"RECORD_BYTES" with PNone => PStr [] | v => v end) m
        (Objects.get_target o label params st name) name file in_memory disk_size
  | _ => Err AttributeError
  end.

(** ** get_scaled *)
(** the element type of the array that was loaded; VAX reals have become float32 *)
Definition loaded_type (p : props) : res dt :=
  if is_vax p then Ok DF32
  else
    match styp p with
    | None => Err TypeError
    | Some s =>
        match numpy_meaning s with
        | Some t => match t_kind t with
                    | KSigned => Ok (DInt true (Z.of_nat (t_size t)))
                    | KUnsigned => Ok (DInt false (Z.of_nat (t_size t)))
                    | KFloat => Ok (if t_size t =? 4 then DF32 else DF64)
                    | _ => Err TypeError
                    end
        | None => Err TypeError
        end
    end.
Definition element (c : Array.cell) : Scaling.cell :=
  match c with Array.CNum (EI z) => Scaling.mkCell (Fin (inject_Z z)) false | Array.CNum (EF x) => Scaling.mkCell x false | CBytes _ => Scaling.mkCell NaN false end.
(** pdr.py:872-900, of an object that was not scaled yet.  A name of line prefixes without
    any (None) is a TypeError *)
Definition scaled_image (special : list (str * const)) (record_bytes : pv) (m : multidict) (target : pv) (name : str) (file : list ascii)
    (in_memory : bool) (disk_size : Z) (inplace : bool) (float_dtype : option dt) : res ndarray :=
  do a <- load_image record_bytes m target name file in_memory disk_size;
  match a with
  | None => Err TypeError
  | Some a =>
      do p <- properties_of m name; do d <- loaded_type p;
      get_scaled special m (mkNd d (mkArr (shape a) (fun idx => element (at_ a idx)))) inplace float_dtype
  end.
End Vax.
