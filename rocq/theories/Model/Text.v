(** Model of pdr/loaders/text.py: headers, labels and text files.  Line numbers cite that
    file.  Decoding is the identity: text is ASCII, or any bytes where it is ISO-8859-1
    (120-122); what UTF-8 decoding makes of other bytes is not modelled, nor is the pvl
    format. *)
From Verif.Base Require Import Py Val.
From Verif.Model Require Import Pvl Files Position Trim.
Open Scope Z_scope.

(** io.TextIOWrapper: universal newlines; iterating gives lines with their newline *)
Definition decoded_lines (file : str) : list str := file_lines (cle file).
(** line.replace("\n", "\r\n") *)
Definition dos_line (l : str) : str := flat_map (fun c => if Ascii.eqb c NL then [CR; NL] else [c]) l.
(** 112-117 *)
Fixpoint pick_lines (i start stop : Z) (ls : list str) : list str :=
  match ls with
  | [] => []
  | l :: ls =>
      if stop <=? i then []
      else (if start <=? i then [dos_line l] else []) ++ pick_lines (i + 1) start stop ls
  end.
(** 62-127 [skeptically_load_header]: PNone with a warning for ValueError and OSError *)
Definition load_header (file : str) (p : position) : res pv :=
  match p_length p with
  | PInt n =>
      if p_as_rows p then Ok (PStr (concat (pick_lines 0 (p_start p) (p_start p + n) (decoded_lines file))))
      else if p_start p <? 0 then Ok PNone
      else
        let tail := skipn (Z.to_nat (p_start p)) file in
        let n := Z.min n 80000 in
        Ok (PStr (if n <? 0 then tail else firstn (Z.to_nat n) tail))
  | _ => Err TypeError
  end.
(** 32-38 [read_header], and the decorator of _helpers.py:138-148 *)
Definition read_header (file : str) (p : position) : res pv :=
  do v <- load_header file p; Ok (canonicalize_line_endings v).
(** datawrap.py:122-132 [ReadHeader]: position and text *)
Definition load_header_object (record_bytes record_type : pv) (b : option multidict) (target : pv) (name : str) (start_byte : Z) (file : str) : res pv :=
  do p <- table_position record_bytes record_type b target name start_byte; read_header file p.

(** 130-139 [ignore_if_pdf]; [files] is the content of the files there are (check_cases is
    Model/Files.v) *)
Definition ignore_if_pdf (files : str -> option str) (fn : str) : res pv :=
  if looks_like_this_kind_of_file fn [$".pdf"] then Ok PNone
  else match files fn with None => Err FileNotFoundError | Some c => Ok (canonicalize_line_endings (PStr (cle c))) end.
(** 16-29 [read_text] *)
Definition read_text (files : str -> option str) (fn : pv) : res pv :=
  match fn with
  | PStr s => ignore_if_pdf files s
  | PTuple l => do r <- rmap (fun v => match v with PStr s => ignore_if_pdf files s | _ => Err TypeError end) l; Ok (PTuple r)
  | _ => Ok PNone
  end.
(** 41-59 [read_label] with fmt "text": trim_label and the decorator *)
Definition read_label (decode : str -> res str) (csize max_size : nat) (strict raise_no_ending : bool) (file : str) : res pv :=
  do t <- trim_label decode csize max_size strict raise_no_ending file; Ok (canonicalize_line_endings (PStr t)).
