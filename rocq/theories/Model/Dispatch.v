(** Model of the choice of loaders: pdr/loaders/dispatch.py:34-162 and [is_trivial],
    pdr/loaders/utility.py:84-103.  Line numbers cite dispatch.py unless said. *)
From Verif.Base Require Import Py Val.
From Verif.Model Require Import Files.

Inductive kind := KTrivial | KLabel | KFits | KCompressedImage | KImage | KText | KArray | KTable | KHeader | KTBD.
(** utility.py:18-21 *)
Definition IMAGE_EXTENSIONS : list str := [$".img"; $".rgb"].
Definition TABLE_EXTENSIONS : list str := [$".tab"; $".csv"].
Definition TEXT_EXTENSIONS : list str := [$".txt"; $".md"].
(** utility.py:84-103 *)
Definition is_trivial (pointer : str) : bool :=
  (contains $"TIFF" pointer && negb (contains $"IMAGE" pointer) && negb (contains $"DOCUMENT" pointer))
  || contains $"STRUCTURE" pointer || contains $"PDS_OBJECT" pointer.
(** 36-50: [filename] is the name of the object's file *)
Definition image_lib_dispatch (filename : str) : option kind :=
  if looks_like_this_kind_of_file filename FITS_EXTENSIONS then Some KFits
  else if looks_like_this_kind_of_file filename DESKTOP_IMAGE_EXTENSIONS then Some KCompressedImage
  else None.
(** 53-71 *)
Definition special_pointer_dispatch (pointer data_set_id : str) : option kind :=
  if contains $"SLN-L-SP" data_set_id && contains $"SPECTRUM" pointer then Some KImage
  else if contains $"SLN-L-SP" data_set_id && contains $"ANCILLARY_AND_SUPPLEMENT_DATA" pointer then Some KTable
  else None.
(** 130-147 *)
Definition file_extension_to_loader (fn : str) : kind :=
  if looks_like_this_kind_of_file fn FITS_EXTENSIONS then KFits
  else if looks_like_this_kind_of_file fn IMAGE_EXTENSIONS then KImage
  else if looks_like_this_kind_of_file fn TEXT_EXTENSIONS then KText
  else if looks_like_this_kind_of_file fn TABLE_EXTENSIONS then KTable
  else if looks_like_this_kind_of_file fn DESKTOP_IMAGE_EXTENSIONS then KCompressedImage
  else KTBD.
(** 98-101 *)
Definition table_words : list str :=
  [$"TABLE"; $"SPREADSHEET"; $"CONTAINER"; $"SERIES"; $"SPECTRUM"; $"HISTOGRAM"; $"FILE"].
Definition any_in (words : list str) (pointer : str) : bool := existsb (fun w => contains w pointer) words.
(** 74-127.  [special_trivial] stands for the special cases of check_trivial_case
    (checkers.py:1030-1100), [filename] for the name of the file the object is in
    (data._target_path and data.file_mapping agree once the object is being loaded). *)
Definition pointer_to_loader (special_trivial : str -> bool) (data_set_id filename pointer : str) : kind :=
  if is_trivial pointer || special_trivial pointer then KTrivial
  else if str_eqb pointer $"LABEL" then KLabel
  else match image_lib_dispatch filename with
  | Some k => k
  | None =>
  match special_pointer_dispatch pointer data_set_id with
  | Some k => k
  | None =>
    if any_in [$"TEXT"; $"PDF"; $"MAP_PROJECTION_CATALOG"; $"FILENAME"] pointer then KText
    else if contains $"DESC" pointer then KText
    else if contains $"ARRAY" pointer then KArray
    else if any_in table_words pointer && negb (any_in (map (fun w => w ++ $"_HEADER") table_words) pointer)
         && negb (any_in (map (fun w => w ++ $"_NAME") table_words) pointer) && negb (contains $"HISTOGRAM_IMAGE" pointer) then KTable
    else if contains $"HEADER" pointer then
      if looks_like_this_kind_of_file filename FITS_EXTENSIONS then KFits else KHeader
    else if any_in [$"IMAGE"; $"QUB"; $"XDR_DOCUMENT"] pointer then KImage
    else if contains $"FILE_NAME" pointer then file_extension_to_loader pointer
    else KTBD
  end end.
(** 150-162: the names the pattern of OBJECTS_TO_IGNORE matches, for names without
    newlines: those that begin with DATA_SET_MAP_PROJECT, end with _DESC, or end with
    DESCRIPTION and possibly an underscore and digits *)
(** the text before a final "_" followed by digits, if there is one *)
Definition without_number (s : str) : str :=
  match lstrip_by is_digit (rev s) with
  | "_"%char :: r => rev r
  | _ => s
  end.
Definition ignored_by_default (name : str) : bool :=
  startswith $"DATA_SET_MAP_PROJECT" name || endswith $"_DESC" name || endswith $"DESCRIPTION" name
  || endswith $"DESCRIPTION" (without_number name).
