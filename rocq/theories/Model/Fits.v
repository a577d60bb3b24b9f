(** Model of FITS files: pdr/loaders/handlers.py:22-200, 236-275, 300-326, the pointers to
    their parts (pdr/loaders/queries.py:345-384), opening one directly and loading from
    it (pdr/pdr.py:634-668, 780-785), and PDS4 products with FITS files (pdr.py:689-748).
    Line numbers cite handlers.py unless said.  astropy.io.fits is trusted: it splits a
    file into HDUs, reads their cards and decodes their data. *)
From Verif.Base Require Import Py Val.
From Verif.Model Require Import Scaling Pds4Types Pds4Tables Pds4Values Pds4Frame Data.
Open Scope nat_scope.

(** ** What astropy delivers *)
(** the value of a card: a str, float or int; nothing; or some other Python object, of which
    only str() is used *)
Inductive cvalue := CV (v : pv) | CUndefined | COther (s : str).
Record cardtext := mkC { c_key : str; c_val : cvalue; c_com : str }.
(** a card astropy refuses to parse may have become legible after verify('silentfix') *)
Inductive card := Good (c : cardtext) | Bad (fixed : option cardtext).
(** image, or table: its fields have the repetitions [t_shape] of TFORM or TDIM *)
Inductive fbody := FArr (shape : list nat) (vals : list dfvalue) | FTab (binary : bool) (fs : list tfield).
(** name; cards; bytes of the header and of the data with their padding; data *)
Record hdu := mkH { h_name : str; h_cards : list card; h_hlen : Z; h_dlen : Z; h_data : option fbody }.
Definition no_hdu : hdu := mkH [] [] 0 0 None.

(** ** Headers.  236-275 [handle_fits_header]; StopIteration is not modelled *)
Definition card_value (v : cvalue) : pv := match v with CV v => v | CUndefined => PNone | COther s => PStr s end.
Definition card_entries (c : cardtext) : multidict :=
  match c_key c with
  | [] => []
  | _ => (c_key c, card_value (c_val c)) :: match c_com c with [] => [] | _ => [(c_key c ++ $"_comment", PStr (c_com c))] end
  end.
Fixpoint handle_fits_header (skip_bad_cards : bool) (cs : list card) : res multidict :=
  match cs with
  | [] => Ok []
  | Bad _ :: cs => if skip_bad_cards then handle_fits_header skip_bad_cards cs else Err VerifyError
  | Good c :: cs => do rest <- handle_fits_header skip_bad_cards cs; Ok (card_entries c ++ rest)
  end.
(** hdulist.verify('silentfix'): mends what can be mended in all HDUs, and raises if
    something is left *)
Definition silentfix (c : card) : card := match c with Bad (Some c) => Good c | c => c end.
Definition is_bad (c : card) : bool := match c with Bad _ => true | Good _ => false end.
Definition verify (hs : list hdu) : list hdu * bool :=
  let hs := map (fun h => mkH (h_name h) (map silentfix (h_cards h)) (h_hlen h) (h_dlen h) (h_data h)) hs in
  (hs, existsb (fun h => existsb is_bad (h_cards h)) hs).
Definition cards_of (hs : list hdu) (i : nat) : list card := h_cards (nth i hs no_hdu).
(** 83-101 *)
Definition header_value (hs : list hdu) (i : nat) : res multidict :=
  match handle_fits_header false (cards_of hs i) with
  | Err VerifyError =>
      let (hs, unfixed) := verify hs in
      match (if unfixed then Err VerifyError else handle_fits_header false (cards_of hs i)) with
      | Err VerifyError | Err ValueError => handle_fits_header true (cards_of hs i)
      | r => r
      end
  | r => r
  end.

(** ** Where the parts are.  23-41 [hdu_byte_index]: start byte, number of the HDU and
    whether it is its header; later entries replace earlier ones with the same byte *)
Definition part := (nat * bool)%type.
Fixpoint byte_entries (i : nat) (at_byte : Z) (hs : list hdu) : list (Z * part) :=
  match hs with
  | [] => []
  | h :: hs => (at_byte, (i, true)) :: (at_byte + h_hlen h, (i, false))%Z :: byte_entries (S i) (at_byte + h_hlen h + h_dlen h)%Z hs
  end.
Definition hdu_byte_index (hs : list hdu) : list (Z * part) := rev (byte_entries 0 0 hs).
Definition byte_get (idx : list (Z * part)) (b : Z) : option part :=
  match find (fun e => Z.eqb (fst e) b) idx with Some e => Some (snd e) | None => None end.

(** ** Tables *)
Definition rename (f : tfield) (n : str) : tfield := mkT n (t_shape f) (t_special f) (t_vals f).
Definition count_str (n : str) (l : list str) : nat := length (filter (str_eqb n) l).
(** 170-183 [reindex_dupe_names]: the names before position [i] say which number it gets *)
Definition reindexed (names : list str) (i : nat) : str :=
  let n := nth i names [] in
  if 1 <? count_str n names then n ++ $"_" ++ str_of_nat (count_str n (firstn i names)) else n.
Definition reindex_dupe_names (names : list str) : list str := map (reindexed names) (seq 0 (length names)).
(** 126-167 [_convert_fits_table_to_df]: numpy refuses equal names, max() no fields at all *)
Definition convert_table (binary : bool) (fs : list tfield) : res (list (str * list dfvalue)) :=
  let names := map t_name fs in
  let fs := if binary then map (fun p => rename (fst p) (snd p)) (combine fs (reindex_dupe_names names)) else fs in
  if has_dup (map t_name fs) then Err ValueError
  else match fs with
       | [] => Err ValueError
       | _ =>
           if existsb (fun f => negb (length (t_shape f) =? 0)) fs then
             if existsb (fun f => 2 <? length (t_shape f)) fs then Err NotImplementedError_
             else structured_array_to_df fs
           else Ok (map (fun f => (t_name f, raw (t_vals f))) fs)
       end.

(** ** Objects.  48-123 [handle_fits_file] *)
Inductive fobject := OHeader (m : multidict) | OArray (shape : list nat) (vals : list dfvalue) | OFrame (cols : list (str * list dfvalue)).
Inductive hdu_id := AtByte (b : Z) | AtIndex (i : nat).
Definition locate (hs : list hdu) (name : str) (id : hdu_id) : res part :=
  match id with
  | AtByte b => match byte_get (hdu_byte_index hs) b with Some p => Ok p | None => Err KeyError end
  | AtIndex i => Ok (i, contains $"HEADER" name && negb (str_in name (map h_name hs)))
  end.
Definition body_of (h : hdu) : res fobject :=
  match h_data h with
  | None => Ok (OArray [0] [])
  | Some (FArr s l) => Ok (OArray s l)
  | Some (FTab b fs) => do d <- convert_table b fs; Ok (OFrame d)
  end.
Definition handle_fits_file (hs : list hdu) (name : str) (id : hdu_id) : res (list (str * fobject)) :=
  do p <- locate hs name id;
  do hdr <- (if fst p <? length hs then header_value hs (fst p) else Err IndexError);
  if snd p then Ok [(name, OHeader hdr)]
  else
    do body <- body_of (nth (fst p) hs no_hdu);
    Ok (dict_set [(name ++ $"_HEADER", OHeader hdr)] name body).

(** ** PDS3 pointers.  queries.py:345-363 [_agnostic_fits_index] *)
Definition fits_matches (is_header : bool) (idx : list (Z * part)) (target factor : Z) : list Z :=
  filter (fun t => match byte_get idx t with Some p => Bool.eqb (snd p) is_header | None => false end)
    [((target - 1) * factor)%Z; (target * factor)%Z].
Definition agnostic_fits_index (is_header : bool) (target : Z) (hs : list hdu) : res Z :=
  let idx := hdu_byte_index hs in
  match fits_matches is_header idx target 1 with
  | t :: _ => Ok t
  | [] => match fits_matches is_header idx target 2880 with t :: _ => Ok t | [] => Err ValueError end
  end.
(** queries.py:366-384 [get_fits_start_byte]; [filename] is the last part of the path *)
Definition get_fits_start_byte (name : str) (target : pv) (filename : str) (hs : list hdu) : res Z :=
  do target <- match target with
               | PStr s => if str_eqb (lower s) (lower filename) then Ok (PInt 0) else Err ValueError
               | PTuple l => match nth_error l 1 with Some t => Ok t | None => Err IndexError end
               | t => Ok t
               end;
  do target <- match target with
               | PDict d =>
                   match dict_get d $"units" with
                   | None => Err KeyError
                   | Some u =>
                       match dict_get d $"value" with
                       | None => Err KeyError
                       | Some (PInt v) => Ok (PInt (match u with PStr s => if str_eqb s $"BYTES" then v else (v * 2880)%Z | _ => (v * 2880)%Z end))
                       | Some _ => Err TypeError
                       end
                   end
               | t => Ok t
               end;
  match target with
  | PInt t => agnostic_fits_index (contains $"HEADER" name) t hs
  | _ => Err TypeError
  end.
(** datawrap.py:152-175 [ReadFits] *)
Definition load_pds3_fits (name : str) (target : pv) (filename : str) (hs : list hdu) : res (list (str * fobject)) :=
  do b <- get_fits_start_byte name target filename hs;
  handle_fits_file hs name (AtByte b).

(** ** PDS4.  pdr.py:689-712 [_find_fits_header_pds4_id] *)
Inductive pkind := KHeader | KArray | KTable.
Record pstruct := mkPS { p_kind : pkind; p_file : str; p_offset : Z; p_length : option Z; p_name : option str }.
Fixpoint find_fits_header_pds4_id (ss : list (str * pstruct)) (start_byte : Z) : option str :=
  match ss with
  | [] => None
  | (_, s) :: ss =>
      match p_kind s, p_length s with
      | KHeader, Some n =>
          if (p_offset s + n =? start_byte)%Z
          then match p_name s with Some m => Some (object_name m) | None => None end
          else find_fits_header_pds4_id ss start_byte
      | _, _ => find_fits_header_pds4_id ss start_byte
      end
  end.
(** result[new] = result.pop(old) *)
Definition dict_del {A} (d : list (str * A)) (k : str) : list (str * A) := filter (fun e => negb (str_eqb (fst e) k)) d.
Definition dict_move {A} (d : list (str * A)) (old new : str) : res (list (str * A)) :=
  match dict_get d old with Some v => Ok (dict_set (dict_del d old) new v) | None => Err KeyError end.
(** pdr.py:714-748 [_load_pds4] of a structure in a FITS file: the objects added;
    [open_] is the content of each file *)
Definition load_pds4_fits (open_ : str -> list hdu) (ss : list (str * pstruct)) (name : str) : res (list (str * fobject)) :=
  match dict_get ss name with
  | None => Err KeyError
  | Some s =>
      do r <- handle_fits_file (open_ (p_file s)) name (AtByte (p_offset s));
      match p_kind s with
      | KHeader => Ok r
      | _ => match find_fits_header_pds4_id ss (p_offset s) with
             | Some hid => dict_move r (name ++ $"_HEADER") hid
             | None => Ok r
             end
      end
  end.

(** ** Opening a FITS file.  300-326 [unpack_fits_headers]: groupby keeps the order of first
    appearance *)
Fixpoint distinct (l : list str) : list str :=
  match l with [] => [] | x :: l => x :: filter (fun y => negb (str_eqb x y)) (distinct l) end.
Definition group_of (hs : list hdu) (n : str) : list nat :=
  filter (fun i => str_eqb n (h_name (nth i hs no_hdu))) (seq 0 (length hs)).
Definition group_keys (hs : list hdu) (n : str) : list (str * nat) :=
  match group_of hs n with
  | [i] => [(n, i)]
  | l => map (fun p => (n ++ $"_" ++ str_of_nat (fst p), snd p)) (enum l)
  end.
Definition fits_keys (hs : list hdu) : list (str * nat) := flat_map (group_keys hs) (distinct (map h_name hs)).
Record fits_open := mkF { f_index : list str; f_headers : list (str * multidict); f_params : list str; f_hdumap : list (str * nat) }.
Definition unpack_fits_headers (hs : list hdu) : res fits_open :=
  do hd <- rmap (fun p => do h <- handle_fits_header false (cards_of hs (snd p)); Ok (fst p, h)) (fits_keys hs);
  Ok (mkF (map fst hd) hd
        (flat_map (fun p => fst p :: map fst (match dict_get hd (fst p) with Some h => h | None => [] end)) hd)
        (fold_left (fun d p => dict_set d (fst p) (snd p)) (fits_keys hs) [])).
(** pdr.py:634-650 [_load_primary_fits], with the loader's interface of Model/Data.v *)
Definition load_primary_fits (hs : list hdu) (f : fits_open) (name : str) : outcome fobject :=
  match dict_get (f_hdumap f) name with
  | None => Escaped KeyError
  | Some i => match handle_fits_file hs name (AtIndex i) with
              | Ok r => Returned (map (fun e => (fst e, Some (snd e))) r)
              | Err e => Escaped e
              end
  end.
(** Data("file.fits") (pdr.py:289-297, 652-661) *)
Definition new_data (f : fits_open) : state fobject := mkState (f_index f) (fun _ => None) [].
