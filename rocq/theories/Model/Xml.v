(** Model of how the XML label of a PDS4 product becomes a nested MultiDict:
    pdr/pds4_tools/reader/read_label.py:20-120 and 197-240, pdr/pds4_tools/utils/helpers.py:145-269,
    pdr/pds4_tools/reader/label_objects.py:666-678, pdr/parselabel/pds4.py.
    Text is ASCII.  ElementTree's parser is not modelled: a label is the tree it makes, with
    tags such as "{http://pds.nasa.gov/pds4/disp/v1}Display_Settings", and the list of the
    namespaces it met, as (prefix, uri).  The labels of Python 2 (_decode_tree) are left out. *)
From Verif.Base Require Import Py Val.

(** an Element; the tail is the text between its end and the next element *)
Inductive xml := Elem (tag : str) (attrib : list (str * str)) (text tail : option str) (children : list xml).

(** ** read_label.py *)
(** utils/constants.py:8-10 *)
Definition PDS : str := $"http://pds.nasa.gov/pds4/pds/v1".
Definition PDS4_NAMESPACES : list (str * str) :=
  [($"pds", PDS); ($"disp", $"http://pds.nasa.gov/pds4/disp/v1"); ($"sp", $"http://pds.nasa.gov/pds4/sp/v1")].
(** 74-83: one event, for each known namespace *)
Definition known_prefix (elem : str * str) : str * str :=
  fold_left (fun elem p =>
    if str_eqb (snd elem) PDS then ([], snd elem)
    else if str_eqb (snd p) (snd elem) then (fst p, snd elem) else elem) PDS4_NAMESPACES elem.
(** 93-94: the map from uri to prefix; the first wins *)
Definition add_namespace (m : list (str * str)) (elem : str * str) : list (str * str) :=
  let elem := known_prefix elem in if dict_has m (snd elem) then m else m ++ [(snd elem, fst elem)].
Definition namespace_map (events : list (str * str)) : list (str * str) := fold_left add_namespace events [].
(** str.split(c, 1): what is before and after the first [c] *)
Fixpoint cut (c : ascii) (s : str) : str * option str :=
  match s with
  | [] => ([], None)
  | x :: s' => if ch_eqb x c then ([], Some s') else let r := cut c s' in (x :: fst r, snd r)
  end.
(** 99-100; an IndexError if there is no brace *)
Definition strip_namespace (tag : str) : res str :=
  if contains PDS tag then
    match snd (cut "}"%char tag) with Some r => Ok (fst (cut "{"%char tag) ++ r) | None => Err IndexError end
  else Ok tag.
(** str.splitlines, except that the lines between CR and LF are counted, which are empty *)
Definition is_break (c : ascii) : bool :=
  let n := N_of_ascii c in ((10 <=? n) && (n <=? 13) || (28 <=? n) && (n <=? 30))%N.
Fixpoint lines (s : str) : list str :=
  match s with
  | [] => [[]]
  | c :: s' => if is_break c then [] :: lines s' else match lines s' with w :: ws => (c :: w) :: ws | [] => [[c]] end
  end.
(** 197-217 [_non_blank_line_count] *)
Definition is_blank (s : str) : bool := match strip s with [] => true | _ => false end.
Definition non_blank_line_count (s : str) : nat := List.length (filter (fun l => negb (is_blank l)) (lines s)).
(** str.split() *)
Fixpoint split_ws (s : str) : list str :=
  match s with
  | [] => []
  | c :: s' =>
      if is_space c then split_ws s'
      else match s' with
           | [] => [[c]]
           | d :: _ => if is_space d then [c] :: split_ws s' else match split_ws s' with w :: ws => (c :: w) :: ws | [] => [[c]] end
           end
  end.
(** 220-240 [_normalize] *)
Definition normalize (s : str) : str := join $" " (split_ws s).
(** 109-113: the text of an element without children.  [children] tells whether there are some *)
Definition label_text (has_children : bool) (text : option str) : option str :=
  match text with
  | Some (c :: t) => if negb has_children && Nat.eqb (non_blank_line_count (c :: t)) 1 then Some (normalize (c :: t)) else text
  | _ => text
  end.
(** 65-120: what is done at the end of each element.  The values of attributes are not used
    below and stay as they are *)
Fixpoint read_label (e : xml) : res xml :=
  match e with
  | Elem tag attrib text tail children =>
      do cs <- (fix all l := match l with [] => Ok [] | c :: l => do c <- read_label c; do l <- all l; Ok (c :: l) end) children;
      do tag <- strip_namespace tag;
      Ok (Elem tag attrib (label_text (match children with [] => false | _ => true end) text) tail cs)
  end.

(** ** helpers.py *)
(** str.replace, for [old] not empty; [skip] characters of a match remain *)
Fixpoint replace_from (old new : str) (skip : nat) (s : str) : str :=
  match s with
  | [] => []
  | c :: s' =>
      match skip with
      | S skip => replace_from old new skip s'
      | O => if startswith old s then new ++ replace_from old new (List.length old - 1) s' else c :: replace_from old new 0 s'
      end
  end.
Definition replace (old new s : str) : str := replace_from old new 0 s.
(** label_objects.py:670-675 *)
Definition tag_modifications (m : list (str * str)) : list (str * str) :=
  map (fun ns => ($"{" ++ fst ns ++ $"}", if is_blank (snd ns) then [] else snd ns ++ $":")) m.
(** 191-199 *)
Definition modify_tag (mods : list (str * str)) (tag : str) : str := fold_left (fun t m => replace (fst m) (snd m) t) mods tag.
(** 213-218: dd[k].append(v) *)
Definition append_value (dd : list (str * list pv)) (kv : str * pv) : list (str * list pv) :=
  dict_set dd (fst kv) (match dict_get dd (fst kv) with Some l => l | None => [] end ++ [snd kv]).
(** 220-226; a list is a PTuple here *)
Definition single_or_list (kl : str * list pv) : str * pv := (fst kl, match snd kl with [v] => v | l => PTuple l end).
(** 145-269 [xml_to_dict] with skip_attributes and without cast_values: the one pair of the
    dict *)
Fixpoint xml_to_dict (mods : list (str * str)) (e : xml) : str * pv :=
  match e with
  | Elem tag attrib text tail children =>
      let v := match attrib with [] => PNone | _ => PDict [] end in
      let v := match children with
               | [] => v
               | _ => PDict (map single_or_list (fold_left append_value (map (xml_to_dict mods) children) []))
               end in
      let v := match text with
               | None => v
               | Some t => if is_blank t then v
                           else match children, v with
                                | _ :: _, PDict d => PDict (dict_set d $"_text" (PStr t))
                                | _, _ => PStr t
                                end
               end in
      (modify_tag mods tag, v)
  end.

(** ** parselabel/pds4.py *)
(** 36-46 [unpack_to_multidict]: the stack of items, its top first.  [fuel] bounds the steps
    and the depth *)
Fixpoint unpack (fuel : nat) (items : list (str * pv)) : res multidict :=
  match fuel with
  | O => Err OutOfFuel
  | S fuel =>
      match items with
      | [] => Ok []
      | (k, PTuple l) :: items => unpack fuel (map (fun v => (k, v)) l ++ items)
      | (k, PDict d) :: items | (k, PMulti d) :: items => do u <- unpack fuel d; do r <- unpack fuel items; Ok ((k, PMulti u) :: r)
      | (k, v) :: items => do r <- unpack fuel items; Ok ((k, v) :: r)
      end
  end.
(** 50-63 [reformat_pds4_tools_label]: the MultiDict (the list of keys comes from a library
    function) *)
Definition label_to_multidict (fuel : nat) (events : list (str * str)) (root : xml) : res multidict :=
  do root <- read_label root;
  unpack fuel [xml_to_dict (tag_modifications (namespace_map events)) root].
