(** Model of the metadata of images in desktop formats: pdr/pil_utils.py:27-147.
    Pillow and ElementTree are not modelled: an image is what they say about it (the
    records below), and a packet of XML is the tree made of it (Model/Xml.v). *)
From Verif.Base Require Import Py Val.
From Verif.Model Require Import Xml.

(** 27, 71-72 [strip_ns]: NS_PATTERN.sub("", tag).  What follows the first brace that closes,
    if there is one before the end of the line *)
Fixpoint closing (s : str) : option str :=
  match s with
  | [] => None
  | c :: s' => if ch_eqb c "}"%char then Some s' else if ch_eqb c NL then None else closing s'
  end.
Fixpoint strip_from (fuel : nat) (s : str) : str :=
  match fuel, s with
  | S fuel, c :: s' =>
      if ch_eqb c "{"%char then match closing s' with Some r => strip_from fuel r | None => c :: strip_from fuel s' end
      else c :: strip_from fuel s'
  | _, _ => []
  end.
Definition strip_ns (tag : str) : str := strip_from (List.length tag) tag.
(** 75-77 [maybestrip_ns] *)
Definition maybestrip_ns (text : str) (do_remove : bool) : str := if do_remove then strip_ns text else text.

(** 80-97 [pick_text_attrib] *)
Definition has_text (text : option str) : bool :=
  match text with Some t => negb (str_eqb (strip t) []) | None => false end.
Definition stripped (text : option str) : pv := match text with Some t => PStr (strip t) | None => PNone end.
Definition attrib_of (remove_ns : bool) (a : list (str * str)) : list (str * pv) :=
  fold_left (fun d kv => dict_set d (maybestrip_ns (fst kv) remove_ns) (PStr (snd kv))) a [].
Definition pick_text_attrib (remove_ns : bool) (a : list (str * str)) (text : option str) (n_children : nat) : res (option pv) :=
  if has_text text && (0 <? n_children) then Err SyntaxError
  else let has_attrib := negb (List.length a =? 0) in
  if negb (has_text text) && negb has_attrib then Ok None
  else if negb has_attrib then Ok (Some (stripped text))
  else if has_text text then Ok (Some (PDict [($"attrib", PDict (attrib_of remove_ns a)); ($"text", stripped text)]))
  else Ok (Some (PDict (attrib_of remove_ns a))).

(** 118-133 [unpack_xml].  MultiDict(pick): [pick] is a dict for an element with children *)
Definition is_empty (v : option pv) : bool :=
  match v with
  | None | Some (PStr []) | Some (PDict []) | Some (PMulti []) => true
  | _ => false
  end.
Fixpoint unpack_xml (remove_ns : bool) (root : xml) : res (option pv) :=
  match root with
  | Elem tag a text _ cs =>
      do pick <- pick_text_attrib remove_ns a text (List.length cs);
      match cs with
      | [] => Ok pick
      | _ =>
          let xmd := match pick with Some (PDict d) => d | _ => [] end in
          do kept <- (fix go l := match l with
                                  | [] => Ok []
                                  | node :: l' =>
                                      do unpacked <- unpack_xml remove_ns node;
                                      do r <- go l';
                                      Ok (match unpacked with
                                          | Some v => if is_empty unpacked then r else (maybestrip_ns (match node with Elem t _ _ _ _ => t end) remove_ns, v) :: r
                                          | None => r
                                          end)
                                  end) cs;
          Ok (Some (PMulti (xmd ++ kept)))
      end
  end.

(** ** What Pillow says: its tables of names, its parsers, and an image *)
Record pillow := mkPillow {
  TAGS : N -> option str; GPSTAGS : N -> option str;
  lookup : N -> str;                            (* TiffTags.lookup(tag).name *)
  MIME : str -> option str;
  fromstring : pv -> res xml;                   (* ElementTree.fromstring *)
  profile : pv -> res (list (str * (bool * pv)))  (* the profile's attributes: name, callable, value *) }.
Record opened := mkOpened {
  o_attrs : str -> option pv;                   (* getattr(im, attr, None) *)
  o_exif : list (N * pv);                       (* im.getexif().items() *)
  o_mpinfo : option (list (N * pv));            (* im.mpinfo, if there is one *)
  o_ifd : N -> list (N * pv);                   (* im.getexif().get_ifd(tag) *)
  o_palette : option pv (* palette.colors *) }.

(** 30-38 [unpack_icp] *)
Definition unpack_icp (attrs : list (str * (bool * pv))) : list (str * pv) :=
  fold_left (fun d (a : str * (bool * pv)) =>
    if startswith $"__" (fst a) then d else if fst (snd a) then d else dict_set d (fst a) (snd (snd a))) attrs [].
(** 41-43 [add_gps_ifd] *)
Fixpoint add_gps_ifd (p : pillow) (gps : list (N * pv)) (d : list (str * pv)) : res (list (str * pv)) :=
  match gps with
  | [] => Ok d
  | (k, v) :: gps' =>
      match GPSTAGS p k with
      | Some name => add_gps_ifd p gps' (dict_set d (replace $"GPS" [] name) v)
      | None => Err KeyError
      end
  end.
Definition update (d e : list (str * pv)) : list (str * pv) := fold_left (fun d kv => dict_set d (fst kv) (snd kv)) e d.
(** 50-58: the name of a tag *)
Definition tag_name (p : pillow) (im : opened) (tag : N) : str :=
  match TAGS p tag with
  | Some name => name
  | None =>
      if match o_attrs im $"format" with Some (PStr f) => str_in f [$"TIFF"; $"MPO"] | _ => false end
         && negb (str_eqb (lookup p tag) $"unknown")
      then lookup p tag else str_of_N tag
  end.
(** 46-68 [get_image_metadata] *)
Definition add_tag (p : pillow) (im : opened) (outdict : list (str * pv)) (t : N * pv) : res (list (str * pv)) :=
  let name := tag_name p im (fst t) in
  if str_eqb name $"GPSInfo" then do d <- add_gps_ifd p (o_ifd im (fst t)) []; Ok (update outdict d)
  else if str_eqb name $"XMLPacket" then
    do e <- fromstring p (snd t); do v <- unpack_xml true e;
    Ok (dict_set outdict name (match v with Some v => v | None => PNone end))
  else if str_eqb name $"InterColorProfile" then
    do attrs <- profile p (snd t); Ok (dict_set outdict name (PDict (unpack_icp attrs)))
  else Ok (dict_set outdict name (snd t)).
Fixpoint add_tags (p : pillow) (im : opened) (outdict : list (str * pv)) (l : list (N * pv)) : res (list (str * pv)) :=
  match l with [] => Ok outdict | t :: l' => do d <- add_tag p im outdict t; add_tags p im d l' end.
Definition get_image_metadata (p : pillow) (im : opened) : res (list (str * pv)) :=
  add_tags p im [] (o_exif im ++ match o_mpinfo im with Some l => l | None => [] end).
(** 107-115 *)
Definition IMAGE_META_ATTRS : list str :=
  [$"mode"; $"size"; $"width"; $"height"; $"format"; $"format_description"; $"n_frames"].
(** 137-147 [skim_image_data] *)
Definition skim_image_data (p : pillow) (fn : str) (im : opened) : res (list (str * pv)) :=
  let meta := fold_left (fun m attr => match o_attrs im attr with
                                       | None | Some PNone => m
                                       | Some v => dict_set m attr v
                                       end) IMAGE_META_ATTRS [($"fn", PStr fn)] in
  do f <- match dict_get meta $"format" with Some (PStr f) => Ok f | _ => Err KeyError end;
  do mime <- match MIME p f with Some m => Ok m | None => Err KeyError end;
  let meta := dict_set meta $"mimetype" (PStr mime) in
  let meta := match o_palette im with Some colors => dict_set meta $"palette" colors | None => meta end in
  do d <- get_image_metadata p im;
  Ok (update meta d).
