(** Model of file finding, pdr/utils.py:27-263 and pdr/loaders/utility.py:15-48,
    71-76.  Line numbers cite /repo/pdr/utils.py unless another file is named. *)
From Verif.Base Require Import Py.

(** A path is its parent directory and its final component; parsing path
    strings is pathlib's.  [pstr] is str(path). *)
Record path := mkPath { pdir : str; pname : str }.
Definition pstr (p : path) : str := pdir p ++ $"/" ++ pname p.
(** A file system: the entries of each directory in the order iterdir() yields
    them, None when there is no such directory. *)
Definition fsys := str -> option (list str).
Definition path_exists (fs : fsys) (p : path) : bool :=
  match fs (pdir p) with Some l => str_in (pname p) l | None => false end.

Definition DOT : ascii := "."%char.
Definition is_dot (c : ascii) : bool := Ascii.eqb c DOT.
(** pathlib PurePath.suffixes: every dotted part of the final component, none
    if it ends with a dot; leading dots do not start a suffix *)
Definition suffixes (name : str) : list str :=
  if endswith $"." name then []
  else map (cons DOT) (tl (split_on DOT (lstrip_by is_dot name))).
(** pathlib PurePath.suffix: the part from the last dot, if that dot is neither
    first nor last *)
Definition suffix (name : str) : str :=
  let ws := split_on DOT name in
  let ext := last ws [] in
  let stem := join [DOT] (removelast ws) in
  match stem, ext with
  | [], _ | _, [] => []
  | _, _ => DOT :: ext
  end.
(** pathlib PurePath.with_suffix for a non-empty name and a dotted suffix *)
Definition with_suffix (name new : str) : str :=
  firstn (List.length name - List.length (suffix name)) name ++ new.

(** utils.py:27 *)
Definition SUPPORTED_COMPRESSION_EXTENSIONS : list str := [$".gz"; $".bz2"; $".zip"].
(** utils.py:60-73 *)
Definition stem_path (name : str) : str :=
  let lowercase := lower (hd [] (split_on DOT name)) in
  let exts := map lower (suffixes name) in
  match exts with
  | [] => lowercase
  | _ =>
      let looks_compressed := str_in (last exts []) SUPPORTED_COMPRESSION_EXTENSIONS in
      let exts := if (1 <? List.length exts)%nat && looks_compressed then removelast exts else exts in
      lowercase ++ concat exts
  end.

(** utils.py:76-113; the warning about several matches is not modelled *)
Fixpoint check_cases (fs : fsys) (filenames : list path) (skip : bool) : res path :=
  match filenames with
  | [] => Err FileNotFoundError
  | filename :: rest =>
      if skip then Ok filename
      else if path_exists fs filename then Ok filename
      else match fs (pdir filename) with
           | None => check_cases fs rest skip
           | Some entries =>
               match filter (fun e => str_eqb (stem_path e) (lower (pname filename))) entries with
               | [] => check_cases fs rest skip
               | e :: _ => Ok (mkPath (pdir filename) e)
               end
           end
  end.

(** loaders/utility.py:18-24 *)
Definition LABEL_EXTENSIONS : list str := [$".xml"; $".lbl"; $".lblx"].
Definition CHANG_LBL_EXTENSIONS : list str :=
  [$".2bl"; $".2al"; $".2cl"; $".01l"; $".3bl"; $".3al"; $".3cl"].
Definition FITS_EXTENSIONS : list str := [$".fits"; $".fit"; $".fits.gz"; $".fit.gz"; $".fz"].
(** loaders/utility.py:25-48 *)
Definition DESKTOP_IMAGE_EXTENSIONS : list str :=
  [$".bmp"; $".tif"; $".tiff"; $".jp2"; $".jpf"; $".jpc"; $".jpx"; $".jpg"; $".jpeg"; $".gif";
   $".png"; $".webp"].
Definition DESKTOP_IMAGE_STANDARDS : list str :=
  [$"JPEG2000"; $"JPEG"; $"MPO"; $"WEBP"; $"PNG"; $"TIFF"; $"GIF"; $"BMP"].
Definition endswith_any (exts : list str) (s : str) : bool := existsb (fun e => endswith e s) exts.

(** utils.py:183-185 *)
Definition with_extension (p : path) (new_suffix : str) : path :=
  mkPath (pdir p) (with_suffix (pname p) new_suffix).

(** utils.py:224-248.  [.absolute()] of a given label name is the identity here.
    The loop over LABEL_EXTENSIONS swallows FileNotFoundError, the only error
    check_cases raises. *)
Definition associate_label_file (fs : fsys) (data : path) (label : option path) (skip_check : bool)
  : res (option path) :=
  match label with
  | Some l => do p <- check_cases fs [l] skip_check; Ok (Some p)
  | None =>
      let low := lower (pstr data) in
      if endswith_any LABEL_EXTENSIONS low then do p <- check_cases fs [data] false; Ok (Some p)
      else if existsb (fun m => contains ($"ce" ++ [m]) low) $"123456"
              && endswith_any CHANG_LBL_EXTENSIONS low
      then do p <- check_cases fs [data] false; Ok (Some p)
      else
        (fix go exts :=
           match exts with
           | [] => Ok None
           | e :: exts' =>
               match check_cases fs [with_extension data e] false with
               | Ok p => Ok (Some p)
               | Err FileNotFoundError => go exts'
               | Err x => Err x
               end
           end) LABEL_EXTENSIONS
  end.

(** loaders/utility.py:71-76 *)
Definition looks_like_this_kind_of_file (name : str) (exts : list str) : bool :=
  existsb (fun s => str_in s exts) (suffixes (lower name)).

(** utils.py:251-263; [image_format] is PIL's Image.open(..).format, None for
    UnidentifiedImageError *)
Definition check_primary_fmt (image_format : path -> option str) (p : path) : option str :=
  if endswith_any FITS_EXTENSIONS (lower (pstr p)) then Some $"FITS"
  else if looks_like_this_kind_of_file (pname p) DESKTOP_IMAGE_EXTENSIONS then
    match image_format p with
    | Some s => if str_in s DESKTOP_IMAGE_STANDARDS then Some s else None
    | None => None
    end
  else None.

(** utils.py:160-180: which decompressor is put around the open file *)
Inductive stream_kind := SGzip | SBz2 | SZip | SPlain.
Definition decompress_kind (name : str) : stream_kind :=
  let s := lower (suffix name) in
  if str_eqb s $".gz" then SGzip else if str_eqb s $".bz2" then SBz2
  else if str_eqb s $".zip" then SZip else SPlain.

(** utils.py:187-193: the parts before the last component called "data" *)
Definition find_repository_root (parts : list str) : res (list str) :=
  let fix indices (i : nat) (l : list str) : list nat :=
    match l with
    | [] => []
    | p :: l' => (if str_eqb (lower p) $"data" then [i] else []) ++ indices (S i) l'
    end in
  match rev (indices 0%nat parts) with
  | [] => Err IndexError
  | i :: _ => Ok (firstn i parts)
  end.

(** utils.py:116-147 [append_repeated_object]: a sequence (anything with
    __add__, strings included) is spliced, anything else appended; counts below
    one are one *)
Inductive repeatable (A : Type) := RSeq (l : list A) | RObj (a : A).
Arguments RSeq {A}. Arguments RObj {A}.
Definition append_repeated_object {A} (obj : repeatable A) (fields : list A) (count : Z) : list A :=
  match obj with
  | RSeq l => if (1 <? count)%Z then fields ++ concat (map (fun _ => l) (seq 0 (Z.to_nat count)))
              else fields ++ l
  | RObj a => if (1 <? count)%Z then fields ++ map (fun _ => a) (seq 0 (Z.to_nat count))
              else fields ++ [a]
  end.
