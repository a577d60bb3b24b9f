(** Specification for C85: what the metadata of an image in a desktop format says. *)
From Verif.Base Require Import Py Val.
From Verif.Model Require Import Xml ImageMeta.
From Verif.Spec Require Import Xml.

(** ** XML *)
(** [local tag name]: [name] is the name in [tag], which is that name, or "{namespace}name" *)
Inductive local : str -> str -> Prop :=
| local_plain name : ~ In "{"%char name -> local name name
| local_clark uri name : ~ In "}"%char uri -> ~ In NL uri -> ~ In "{"%char name -> local ($"{" ++ uri ++ $"}" ++ name) name.
(** every tag and every attribute's name is called as [nm] says *)
Definition locals (nm : str -> str) (root : xml) : Prop :=
  forall e, inside e root -> local (tag_of e) (nm (tag_of e)) /\ Forall (fun a => local (fst a) (nm (fst a))) (attributes e).
(** the text of an element: white space around it does not count *)
Inductive text_is : option str -> option str -> Prop :=
| no_text : text_is None None
| blank_text s : blank s -> text_is (Some s) None
| some_text a w b c t d u : blank a -> blank b -> w = c :: t -> w = u ++ [d] -> is_space c = false -> is_space d = false ->
    text_is (Some (a ++ w ++ b)) (Some w).
(** [last_said l k v]: the last of [l] called [k] is [v] *)
Definition last_said {A} (l : list (str * A)) (k : str) (v : A) : Prop :=
  exists before after, l = before ++ (k, v) :: after /\ ~ In k (map fst after).
(** [dict_of l d]: the dict [d] is made of the entries [l]; its keys are in the order in which
    they first appear, each with the last value given for it *)
Definition dict_of {A} (l d : list (str * A)) : Prop :=
  map fst d = firsts (map fst l) /\ Forall (fun kv => last_said l (fst kv) (snd kv)) d.
(** a dict of attributes; of two with the same name in different namespaces it has the last *)
Definition attributes_shown (nm : str -> str) (a : list (str * str)) (d : list (str * pv)) : Prop :=
  dict_of (map (fun x => (nm (fst x), PStr (snd x))) a) d.
(** the children that have something to show *)
Definition kept (nm : str -> str) (c : xml) (v : option pv) : list (str * pv) :=
  match v with None | Some (PMulti []) => [] | Some v => [(nm (tag_of c), v)] end.
(** [shown nm e v]: [v] shows the element [e] *)
Inductive shown (nm : str -> str) : xml -> option pv -> Prop :=
| shown_nothing tag text tail : text_is text None -> shown nm (Elem tag [] text tail []) None
| shown_text tag text tail w : text_is text (Some w) -> shown nm (Elem tag [] text tail []) (Some (PStr w))
| shown_attributes tag a text tail d : a <> [] -> text_is text None -> attributes_shown nm a d ->
    shown nm (Elem tag a text tail []) (Some (PDict d))
| shown_both tag a text tail d w : a <> [] -> text_is text (Some w) -> attributes_shown nm a d ->
    shown nm (Elem tag a text tail []) (Some (PDict [($"attrib", PDict d); ($"text", PStr w)]))
| shown_children tag a text tail cs d vs : cs <> [] -> text_is text None -> attributes_shown nm a d -> Forall2 (shown nm) cs vs ->
    shown nm (Elem tag a text tail cs) (Some (PMulti (d ++ flat_map (fun cv => kept nm (fst cv) (snd cv)) (combine cs vs)))).
(** an element with neither attributes nor text, nor any inside it *)
Definition void (e : xml) : Prop := forall x, inside x e -> attributes x = [] /\ text_is (text_of x) None.
(** an element with both text and children *)
Definition mixed (e : xml) : Prop := children e <> [] /\ ~ text_is (text_of e) None.

(** ** Tags *)
(** [tag_called p im tag name] *)
Definition of_format (im : opened) (f : str) : Prop := o_attrs im $"format" = Some (PStr f).
Definition has_tiff_tags (im : opened) : Prop := of_format im $"TIFF" \/ of_format im $"MPO".
Inductive tag_called (p : pillow) (im : opened) (tag : N) : str -> Prop :=
| called_exif name : TAGS p tag = Some name -> tag_called p im tag name
| called_tiff : TAGS p tag = None -> has_tiff_tags im -> lookup p tag <> $"unknown" -> tag_called p im tag (lookup p tag)
| called_number : TAGS p tag = None -> ~ has_tiff_tags im \/ lookup p tag = $"unknown" -> tag_called p im tag (str_of_N tag).
(** the name of an entry about position, without "GPS" *)
Inductive gps_called (p : pillow) (tag : N) : str -> Prop :=
| gps_prefix name : GPSTAGS p tag = Some ($"GPS" ++ name) -> ~ (exists a b, name = a ++ $"GPS" ++ b) -> gps_called p tag name
| gps_plain name : GPSTAGS p tag = Some name -> ~ (exists a b, name = a ++ $"GPS" ++ b) -> gps_called p tag name.
(** [entry p im t es]: the tag [t] (number, value) says the entries [es] *)
Inductive entry (p : pillow) (im : opened) : N * pv -> list (str * pv) -> Prop :=
| entry_gps tag v es : tag_called p im tag $"GPSInfo" ->
    Forall2 (fun g e => gps_called p (fst g) (fst e) /\ snd e = snd g) (o_ifd im tag) es -> entry p im (tag, v) es
| entry_xml tag v root nm x : tag_called p im tag $"XMLPacket" -> fromstring p v = Ok root -> locals nm root -> shown nm root x ->
    entry p im (tag, v) [($"XMLPacket", match x with Some x => x | None => PNone end)]
| entry_profile tag v attrs d : tag_called p im tag $"InterColorProfile" -> profile p v = Ok attrs ->
    (* those that are not methods, and whose names do not begin with two underscores *)
    dict_of (map (fun a : str * (bool * pv) => (fst a, snd (snd a)))
      (filter (fun a : str * (bool * pv) => negb (startswith $"__" (fst a)) && negb (fst (snd a))) attrs)) d ->
    entry p im (tag, v) [($"InterColorProfile", PDict d)]
| entry_other tag v name : tag_called p im tag name -> name <> $"GPSInfo" -> name <> $"XMLPacket" -> name <> $"InterColorProfile" ->
    entry p im (tag, v) [(name, v)].
(** the tags of an image *)
Definition tags (im : opened) : list (N * pv) := o_exif im ++ match o_mpinfo im with Some l => l | None => [] end.
(** what Pillow itself knows of it *)
Definition known (p : pillow) (fn : str) (im : opened) (mime : str) : list (str * pv) :=
  ($"fn", PStr fn) ::
  flat_map (fun a => match o_attrs im a with Some PNone | None => [] | Some v => [(a, v)] end)
    [$"mode"; $"size"; $"width"; $"height"; $"format"; $"format_description"; $"n_frames"] ++
  [($"mimetype", PStr mime)] ++ match o_palette im with Some c => [($"palette", c)] | None => [] end.
