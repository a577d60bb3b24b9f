(** Model of how a PDS3 product lists its objects and finds their files: pdr/pdr.py:359-530
    ([_associate_prefix_tables], [_find_objects], [_object_to_filename],
    [_check_compressed_file_pointer], [_target_path]), 950-959 ([get_absolute_paths]),
    formats/checkers.py:1278-1316 ([check_special_objects]) and loaders/queries.py:283-342,
    902-928 ([_fix_up_line_prefix_table_block], [get_block], [get_target],
    [standalone_start_byte]).  Line numbers cite pdr/pdr.py unless another file is named. *)
From Verif.Base Require Import Py Val.
From Verif.Model Require Import Pvl Files Dispatch.
From Verif.Model Require Meta.
From Verif.Model Require Import Table.

(** formats/checkers.py:1278-1316 [check_special_objects]; identifiers are strings *)
Definition msl_cameras : list str := [$"MAHLI"; $"MAST_RIGHT"; $"MAST_LEFT"; $"MARDI"].
Definition check_special_objects (ident : str -> str) : option (list str) :=
  if str_eqb (ident $"INSTRUMENT_HOST_NAME") $"MARS SCIENCE LABORATORY" &&
     str_in (ident $"INSTRUMENT_ID") msl_cameras && contains $"EDR" (ident $"DATA_SET_ID")
  then Some [$"IMAGE"; $"MODEL_DESC"]
  else
    let change3 word := str_eqb (ident $"SPACECRAFT_NAME") $"Chang'E-3 Rover" &&
      contains word (ident $"PRODUCT_ID") && contains $".2A" (ident $"PRODUCT_ID") in
    if change3 $"CE3_BMYK_VNIS-CC_SCI_N" then Some [$"LABEL"; $"IMAGE_PREFIX"; $"IMAGE"]
    else if change3 $"CE3_BMYK_VNIS-SC_SCI_N_" then Some [$"LABEL"; $"TABLE"]
    else if change3 $"CE3_BMYK_VNIS-SD_SCI_N_" then Some [$"LABEL"; $"TABLE"]
    else None.

Definition path_eqb (p q : path) : bool := str_eqb (pdir p) (pdir q) && str_eqb (pname p) (pname q).
(** Path(directory, name).absolute(): directories in [name] are put after [directory], unless
    [name] is absolute.  Simplification: no normalization of . and // *)
Definition path_of (directory name : str) : path :=
  let whole := if startswith $"/" name then name else directory ++ $"/" ++ name in
  match rev (split_on "/"%char whole) with
  | [] => mkPath directory name
  | last :: before => mkPath (join $"/" (rev before)) last
  end.

Section Product.
(** a parsed label: traversal order of the library, the mapping and the list of its keys *)
Variable o : order.
Variable m : multidict.
Variable params : list str.
(** the file that was opened, and the directories searched *)
Variable filename : path.
Variable search_paths : list str.

(** [metaget_] and [metablock_], without their caches (see C12) *)
Definition mget (name : str) : pv :=
  if (count_str name params =? 0)%nat then PNone else Meta.metaget_interior o m name PNone.
Definition mblock (name : str) : pv :=
  if (count_str name params =? 0)%nat then PNone else Meta.metablock_interior o m name.

(** 950-959, for one file name *)
Definition get_absolute_paths (name : str) : list path := map (fun d => path_of d name) search_paths.

(** 469-497 [_check_compressed_file_pointer].  [compkeys] is the set of the two keys in the
    order in which this run of Python iterates over it (which depends on the seed of its
    hashes).  Simplification: a FILE_NAME that is a sequence is an error. *)
Definition falsy (v : pv) : bool :=
  match v with PNone | PStr [] | PTuple [] | PSet [] | PDict [] | PMulti [] => true | PInt z => (z =? 0)%Z | PBool b => negb b | _ => false end.
Definition file_names_of (compkeys : list str) : res (list str) :=
  do names <- rmap (fun k => match mget k with
                             | PMulti b | PDict b => Ok (match md_get b $"FILE_NAME" with Some v => [v] | None => [] end)
                             | v => if falsy v then Ok [] else Err AttributeError
                             end) compkeys;
  rmap (fun v => match v with PStr s => Ok s | _ => Err TypeError end) (filter (fun v => negb (falsy v)) (concat names)).
Definition check_compressed_file_pointer (compkeys : list str) (object_name : str) : res (option (list path)) :=
  if md_has m $"COMPRESSED_FILE" && md_has m $"UNCOMPRESSED_FILE" then
    match mblock $"UNCOMPRESSED_FILE" with
    | PMulti b | PDict b =>
      if md_has b object_name then do ns <- file_names_of compkeys; Ok (Some (flat_map get_absolute_paths ns)) else Ok None
    | _ => Err AttributeError
    end
  else Ok None.
(** 445-467 [_object_to_filename]; [special]: what check_special_fn says *)
Definition object_to_filename (special : option str) (compkeys : list str) (object_name : str) : res (list path) :=
  match special with
  | Some name => Ok (get_absolute_paths name)
  | None =>
    do c <- check_compressed_file_pointer compkeys object_name;
    match c with
    | Some paths => Ok paths
    | None =>
      match mget (pointerize object_name) with
      | PTuple [] => Err IndexError
      | PTuple (PStr s :: _) | PStr s => Ok (get_absolute_paths s)
      | _ => Ok [filename]
      end
    end
  end.
(** 499-530 [_target_path] of one object, with [file_mapping] as a list, latest first *)
Definition mapped (files : list (str * path)) (name : str) : option path :=
  match find (fun e => str_eqb (fst e) name) files with Some e => Some (snd e) | None => None end.
Definition target_path (fs : fsys) (special : option str) (compkeys : list str) (files : list (str * path))
    (cached raise_missing : bool) (object_name : str) : list (str * path) * res (option path) :=
  match (if cached then mapped files object_name else None) with
  | Some p => (files, Ok (Some p))
  | None =>
    match (do cands <- object_to_filename special compkeys object_name; check_cases fs cands false) with
    | Ok p => ((object_name, p) :: files, Ok (Some p))
    | Err FileNotFoundError => (files, if raise_missing then Err FileNotFoundError else Ok None)
    | Err e => (files, Err e)
    end
  end.

(** What is known after _find_objects: the index, the interleaved objects with their parents
    and the file mapping *)
Record found := mkFound { idx : list str; interleaved : list (str * str); files : list (str * path) }.
(** a dict: setting a key again replaces its value *)
Definition set_parent (l : list (str * str)) (k v : str) : list (str * str) :=
  filter (fun e => negb (str_eqb (fst e) k)) l ++ [(k, v)].
Section Find.
Variable fs : fsys.
Variable special_fn : str -> option str.
Variable compkeys : list str.
(** the start byte found for an object: queries.py:350-395 with check_special_offset (C15) *)
Variable start_of : str -> res Z.
(** queries.py:917-928: [object_name] only decides which file is looked for; the file and the
    start byte reported are those of IMAGE *)
Definition standalone_start_byte (files : list (str * path)) (object_name : str) : list (str * path) * res (path * Z) :=
  let '(files, r) := target_path fs (special_fn object_name) compkeys files true false object_name in
  (files, do _ <- r;
          do fn <- match mapped files $"IMAGE" with Some p => Ok p | None => Err KeyError end;
          do start <- start_of $"IMAGE"; Ok (fn, start)).
(** 384-392: the loop over the prefix objects *)
Fixpoint match_prefix_objects (imname : str) (here : path * Z) (preobjs : list str) (st : found) (any : bool) : res (found * bool) :=
  match preobjs with
  | [] => Ok (st, any)
  | pre :: rest =>
    let '(fl, r) := standalone_start_byte (files st) pre in
    do there <- r;
    if path_eqb (fst there) (fst here) && (snd there =? snd here)%Z
    then match_prefix_objects imname here rest (mkFound (idx st) (set_parent (interleaved st) pre imname) fl) true
    else match_prefix_objects imname here rest (mkFound (idx st) (interleaved st) fl) any
  end.
(** 359-409 [_associate_prefix_tables] *)
Definition associate_prefix_tables (preobjs : list str) (st : found) (imname : str) : res found :=
  match mblock imname with
  | PMulti b | PDict b =>
    match filter is_structure (map fst b) with
    | [] => Ok st
    | [_] =>
      do r <- match preobjs with
              | [] => Ok (st, false)
              | _ => let '(fl, r) := standalone_start_byte (files st) imname in
                     do here <- r; match_prefix_objects imname here preobjs (mkFound (idx st) (interleaved st) fl) false
              end;
      let '(st, any) := r in
      if any : bool then Ok st
      else match md_get b $"^LINE_PREFIX_STRUCTURE" with
           | Some (PStr []) => Ok st
           | _ => let fixname := imname ++ $"_LINE_PREFIX_TABLE" in
                  Ok (mkFound (idx st ++ [fixname]) (set_parent (interleaved st) fixname imname) (files st))
           end
    | _ => Err NotImplementedError_
    end
  | _ => Ok st
  end.
Fixpoint associate_all (preobjs : list str) (images : list str) (st : found) : res found :=
  match images with
  | [] => Ok st
  | imname :: rest => do st <- associate_prefix_tables preobjs st imname; associate_all preobjs rest st
  end.
(** 412-443 [_find_objects], of a product just opened, with 322-328 *)
Definition is_none (v : pv) : bool := match v with PNone => true | _ => false end.
Definition find_objects (ident : str -> str) : res found :=
  match check_special_objects ident with
  | Some names => Ok (mkFound names [] [])
  | None =>
    let names := filter (fun n => negb (is_trivial n)) (map depointerize (get_pds3_pointers o m)) in
    let preobjs := filter (fun n => contains $"LINE_PREFIX" n && is_none (mblock n)) names in
    associate_all preobjs (filter (fun n => contains $"IMAGE" n && negb (contains $"TABLE" n)) names) (mkFound names [] [])
  end.
End Find.

(** queries.py:283-307 [_fix_up_line_prefix_table_block]; [load] reads format files *)
Definition fix_up_line_prefix_table_block (load : pv -> res (list (str * pv))) (parent : multidict) : res multidict :=
  do block <- inject_format_files load parent;
  do block <- (if md_has block $"ROWS" then Ok block
               else match md_get block $"LINES" with Some v => Ok (block ++ [($"ROWS", v)]) | None => Err KeyError end);
  if md_has block $"ROW_SUFFIX_BYTES" then Ok block
  else match md_get block $"SAMPLE_BITS", md_get block $"LINE_SAMPLES" with
       | Some (PInt bits), Some (PInt samples) => Ok (block ++ [($"ROW_SUFFIX_BYTES", PInt (bits / 8 * samples))])
       | Some _, Some _ => Err TypeError
       | _, _ => Err KeyError
       end.
Definition parent_of (st : found) (name : str) : option str :=
  match find (fun e => str_eqb (fst e) name) (interleaved st) with Some e => Some (snd e) | None => None end.
(** queries.py:310-320 [get_block] *)
Definition get_block (load : pv -> res (list (str * pv))) (st : found) (name : str) : res pv :=
  match parent_of st name with
  | Some parent => match mblock parent with
                   | PMulti b | PDict b => do b <- fix_up_line_prefix_table_block load b; Ok (PMulti b)
                   | _ => Err AttributeError
                   end
  | None => Ok (mblock name)
  end.
(** queries.py:330-345 [get_target] *)
Definition get_target (st : found) (name : str) : pv :=
  let name := match parent_of st name with Some parent => parent | None => name end in
  match mget name with
  | PNone | PDict _ | PMulti _ => mget (pointerize name)
  | v => v
  end.
End Product.
