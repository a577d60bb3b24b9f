(** Opening PDS3 products and reading their objects: how the parts modelled in the other files
    are put together.  Models pdr/pdr.py (228-333, 349-357, 535-585, 762-850) and
    pdr/loaders/datawrap.py.  Of the special cases of pdr/formats/checkers.py only those of
    Model/Objects (check_special_objects) and Model/Dispatch are here: this is the reader of
    products that have no other. *)
From Verif.Base Require Import Py Val Numpy.
From Verif.Model Require Import Files Trim Pvl PvlLiteral Meta Position Text Types Array Objects Dispatch Scaling Table TableValues TextTable Histogram PdsImage.

(** What other libraries and the interpreter do: ast.literal_eval, bytes.decode (strict or
    not), dustgoggles' order of traversal, the order of a set of two strings, PIL's formats,
    VAX floats, code page 500, numbers as text, pandas' two readers of numbers and its detection
    of columns, BIT_COLUMNs, the reader of format files, and the depth of recursion *)
Record outside := mkOutside {
  literal_eval : str -> res pv; decode : bool -> str -> res str; walk_order : order; compkeys : list str;
  image_format : path -> option str; vax_pixel : Array.cell -> Array.cell; vax_number : N -> num; cp500 : ascii -> ascii;
  number_text : num -> str; text_number : str -> option num; exact_number : str -> option num; text_columns : str -> list (Z * Z);
  bit_columns : field -> multidict -> res field; format_file : pv -> res (list (str * pv)); recursion : nat }.
(** the file system: directories, what utils.decompress reads from a file, and sizes *)
Record disk := mkDisk { listing : fsys; contents : path -> list ascii; size : path -> Z }.
Inductive object := OImage (a : arr Array.cell) | OTable (t : list framecol) | OValue (v : pv).
(** a Data object just opened: filename, labelname, metadata, index and file_mapping, search_paths *)
Record product := mkProduct { p_filename : path; p_labelname : path; p_meta : multidict; p_keys : list str; p_found : found; p_dirs : list str }.
Section Product.
Variable x : outside.
Variable d : disk.

(** pdr.py:288-294 *)
Definition is_pds4_label (name : str) : bool :=
  endswith $".xml" name || endswith $".lblx" name || contains $"CE" name && existsb (fun e => endswith e name) [$".2BL"; $".2AL"; $".2CL"; $".01L"].
(** pds3.py:134-136, 156-170, without check_special_label *)
Definition looks_pvl (p : path) : bool := str_in (lower (suffix (pname p))) [$".lbl"; $".fmt"].
Definition read_pvl (max_size : nat) (strict : bool) (p : path) : res (multidict * list str) :=
  let strict := strict && negb (looks_pvl p) in
  do text <- trim_label (decode x strict) CHUNK max_size strict false (contents d p);
  parse_pvl (literal_eval x) (walk_order x) text true.
(** metadata.identifiers (see C10), of texts.  Simplification: other values are taken for none *)
Definition identifier (m : multidict) (keys : list str) (k : str) : str := match mget (walk_order x) m keys k with PStr s => s | _ => [] end.
Definition record_field (m : multidict) (keys : list str) (k : str) : pv := match mget (walk_order x) m keys k with PNone => PStr [] | v => v end.
Definition block_items (v : pv) : option multidict := match v with PMulti b | PDict b => Some b | _ => None end.
(** the start byte of an object that is in no other *)
Definition start_of (m : multidict) (keys : list str) (filename : path) (dirs : list str) (name : str) : res Z :=
  do p <- snd (target_path (walk_order x) m keys filename dirs (listing d) None (compkeys x) [] true true name);
  data_start_byte (record_field m keys $"RECORD_BYTES") (block_items (mblock (walk_order x) m keys name))
    (get_target (walk_order x) m keys (mkFound [] [] []) name) (match p with Some p => size d p | None => 0 end).
(** pdr.py:228-333 and 762-805.  Simplification: other standards are a NotImplementedError_ *)
Definition open_product (fn : path) (label_fn : option path) (extra : list str) (max_size : nat) (strict : bool) : res product :=
  do filename <- check_cases (listing d) [fn] false;
  do labelname <- associate_label_file (listing d) filename label_fn false;
  let target := match labelname with Some l => l | None => filename end in
  match check_primary_fmt (image_format x) target with
  | Some _ => Err NotImplementedError_
  | None =>
      if match labelname with Some l => is_pds4_label (pstr l) | None => false end then Err NotImplementedError_
      else
        do mk <- match read_pvl max_size strict target with Err FileNotFoundError => Err ValueError | r => r end;
        let '(m, keys) := mk in
        let dirs := pdir filename :: extra in
        do st <- find_objects (walk_order x) m keys filename dirs (listing d) (fun _ => None) (compkeys x) (start_of m keys filename dirs) (identifier m keys);
        Ok (mkProduct filename target m keys
              (mkFound ($"LABEL" :: idx st) (interleaved st) (files st ++ [($"LABEL", target)])) dirs)
  end.

(** ** datawrap.py and dispatch.py: the loader of an object found in the file [q] *)
Definition compressed (q : path) : bool := match decompress_kind (pname q) with SPlain => false | _ => true end.
Definition read_object (p : product) (name : str) (q : path) : res object :=
  let m := p_meta p in let keys := p_keys p in
  let file := contents d q in
  let block := get_block (walk_order x) m keys (format_file x) (p_found p) name in
  let target := get_target (walk_order x) m keys (p_found p) name in
  let start b := data_start_byte (record_field m keys $"RECORD_BYTES") (block_items b) target (size d q) in
  let position b start := table_position (record_field m keys $"RECORD_BYTES") (record_field m keys $"RECORD_TYPE") (block_items b) target name start in
  match pointer_to_loader (fun _ => false) (identifier m keys $"DATA_SET_ID") (pname q) name with
  | KTrivial => Ok (OValue PNone)
  | KLabel => do v <- read_label (decode x true) CHUNK (N.to_nat (1000 * 1024)) true false file; Ok (OValue v)
  | KImage =>
      do a <- PdsImage.load_object (vax_pixel x) (walk_order x) m keys (format_file x) (p_found p) name file (compressed q) (size d q);
      Ok (match a with Some a => OImage a | None => OValue PNone end)
  | KTable =>
      do b <- block; do start <- start b; do pos <- position b start;
      match block_items b with
      | None => Err AttributeError
      | Some b =>
          (* queries.py:628 *)
          do t <- (if contains $"HISTOGRAM" name then read_histogram (vax_number x) (cp500 x) (compressed q) file b name (Z.to_nat start)
                   else match read_table (vax_number x) (cp500 x) (format_file x) (bit_columns x) (recursion x) (compressed q) file b name (Z.to_nat start) with
                        | Ok t => Ok t
                        (* what is read as text instead, if it is text *)
                        | Err e => match parse_text_structure (format_file x) (bit_columns x) (recursion x) b name with
                                   | Ok (Some _) => read_text_table (text_number x) (exact_number x) (text_columns x) (format_file x) (bit_columns x) (recursion x) file b name pos
                                   | _ => Err e
                                   end
                        end);
          Ok (OTable t)
      end
  | KArray =>
      do b <- block; do start <- start b;
      match block_items b with
      | None => Err AttributeError
      | Some b => do a <- read_array (number_text x) (compressed q) file file b (Z.to_nat start); Ok (OImage a)
      end
  | KHeader =>
      do b <- block; do start <- start b; do v <- load_header_object (record_field m keys $"RECORD_BYTES") (record_field m keys $"RECORD_TYPE") (block_items b) target name start file;
      Ok (OValue v)
  (* documents, FITS files and pictures: Model/Text, Model/Fits, Model/Desktop *)
  | _ => Err NotImplementedError_
  end.
(** pdr.py:535-585 of an object that was not loaded yet: what the loader returns or raises
    (what [load] does with errors is in Model/Data), and the files that are now known *)
Definition load (p : product) (name : str) : list (str * path) * res object :=
  if negb (str_in name (idx (p_found p))) then (files (p_found p), Err KeyError)
  else
    let '(fl, r) := target_path (walk_order x) (p_meta p) (p_keys p) (p_filename p) (p_dirs p) (listing d) None (compkeys x) (files (p_found p)) true false name in
    (fl, do q <- r; match q with None => Err FileNotFoundError | Some q => read_object p name q end).
End Product.
