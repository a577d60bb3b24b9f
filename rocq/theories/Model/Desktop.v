(** Model of images in desktop formats (GIF, JPEG, PNG, TIFF ...): pdr/pdr.py:558-573, 660-684
    (opened directly) and pdr/loaders/handlers.py:179-220.  Pillow is not modelled: a file is
    what it says about it and the frames it decodes. *)
From Verif.Base Require Import Py Val Numpy.
From Verif.Model Require Import Data.

(** A decoded frame: mode P (numbers of colours and the palette), or an array of [height; width]
    or [height; width; channels] *)
Inductive frame :=
| Palette (h w : nat) (colour : nat -> nat -> nat) (palette : list (Z * Z * Z))
| Pixels (a : arr Z).
(** Image.open(fn) and skim_image_data: the format, n_frames if there is such an attribute, the
    MPTypes of the entries of an MPO file, and the frames *)
Record image_file := mkFile { i_format : str; i_frames : option nat; i_mptypes : list str; i_pixels : list frame }.
(** metaget("n_frames", 1) *)
Definition n_frames (f : image_file) : nat := match i_frames f with Some n => n | None => 1 end.

(** im.convert('RGB', palette=im.palette) *)
Definition convert_rgb (h w : nat) (colour : nat -> nat -> nat) (palette : list (Z * Z * Z)) : arr Z :=
  mkArr [h; w; 3] (fun idx =>
    match idx with
    | [y; x; c] => let '(r, g, b) := nth (colour y x) palette (0, 0, 0)%Z in nth c [r; g; b] 0%Z
    | _ => 0%Z
    end).
(** handlers.py:179-204 [handle_compressed_image]; seek raises EOFError beyond the last frame *)
Definition handle_compressed_image (f : image_file) (frame_no : option nat) : res (arr Z) :=
  do im <- match nth_error (i_pixels f) (match frame_no with Some n => n | None => 0 end) with
           | Some im => Ok im | None => Err EOFError_ end;
  let image := match im with Palette h w c p => convert_rgb h w c p | Pixels a => a end in
  (* np.rollaxis(image, 2) is np.moveaxis(image, 2, 0) for three axes *)
  Ok (if length (shape image) =? 3 then moveaxis_2_0 image else image).

(** pdr.py:676: re.sub('[() ]', '_', mptype) *)
Definition clean_mptype (s : str) : str :=
  map (fun c => if Ascii.eqb c "("%char || Ascii.eqb c ")"%char || Ascii.eqb c " "%char then "_"%char else c) s.
(** pdr.py:665-684 [_add_compressed_image_objects] *)
Definition add_compressed_image_objects (f : image_file) : res (list str) :=
  if n_frames f =? 1 then Ok [$"IMAGE"]
  else if str_in (i_format f) [$"GIF"; $"WEBP"] then Ok (map (fun i => $"FRAME_" ++ str_of_nat i) (seq 0 (n_frames f)))
  else if str_eqb (i_format f) $"MPO" then
    match i_mptypes f with
    | [] => Err IndexError
    | t :: ts =>
        if negb (str_eqb t $"Baseline MP Primary Image") then Err NotImplementedError_
        else Ok ($"IMAGE" :: map (fun it => clean_mptype (snd it) ++ $"_" ++ str_of_nat (fst it + 1)) (combine (seq 0 (length ts)) ts))
    end
  else Err NotImplementedError_.
(** int(name.split("_")[-1]); Simplification: of texts that are not digits, ValueError *)
Definition seek_of (name : str) : res nat :=
  match last (split_on "_"%char name) [] with
  | [] => Err ValueError
  | s => match parse_digits 10 0 s with Some n => Ok (N.to_nat n) | None => Err ValueError end
  end.
(** pdr.py:558-573, with the loader's interface of Model/Data.v *)
Definition load_desktop (f : image_file) (name : str) : outcome (arr Z) :=
  match (if n_frames f =? 1 then handle_compressed_image f None
         else do seek <- (if str_eqb (i_format f) $"MPO" && str_eqb name $"IMAGE" then Ok 0 else seek_of name);
              handle_compressed_image f (Some seek)) with
  | Ok a => Returned [(name, Some a)]
  | Err e => Escaped e
  end.
(** Data("image.gif") (pdr.py:289-297, 322-324, 652-662) *)
Definition open_desktop (f : image_file) : res (state (arr Z)) :=
  do index <- add_compressed_image_objects f; Ok (mkState index (fun _ => None) []).
(** handlers.py:207-220 [_check_prescaled_desktop], given the keys of the metadata *)
Definition check_prescaled_desktop (keys : list str) (format_ : str) : bool :=
  if existsb (contains $"GeoKey") keys then false
  else negb (str_eqb format_ $"JPEG2000").
