(** Specification for C43: what a PDS4 label becomes. *)
From Verif.Base Require Import Py Val.
From Verif.Model Require Import Xml.

Definition tag_of (e : xml) : str := match e with Elem t _ _ _ _ => t end.
Definition attributes (e : xml) : list (str * str) := match e with Elem _ a _ _ _ => a end.
Definition text_of (e : xml) : option str := match e with Elem _ _ t _ _ => t end.
Definition children (e : xml) : list xml := match e with Elem _ _ _ _ c => c end.
Inductive inside : xml -> xml -> Prop :=
| inside_self e : inside e e
| inside_child e c e' : In c (children e') -> inside e c -> inside e e'.

(** ** Names.  [named events tag name]: in a label that declares the namespaces [events]
    (prefix and uri, in order), [tag] is called [name]. *)
Definition xml_name (s : str) : Prop := ~ In "{"%char s /\ ~ In "}"%char s /\ ~ In "/"%char s.
Definition DISP : str := $"http://pds.nasa.gov/pds4/disp/v1".
Definition SP : str := $"http://pds.nasa.gov/pds4/sp/v1".
Inductive named (events : list (str * str)) : str -> str -> Prop :=
| named_plain name : xml_name name -> named events name name
| named_pds name : xml_name name -> named events ($"{" ++ PDS ++ $"}" ++ name) name
| named_known prefix given uri name : xml_name name -> (prefix, uri) = ($"disp", DISP) \/ (prefix, uri) = ($"sp", SP) -> In (given, uri) events ->
    named events ($"{" ++ uri ++ $"}" ++ name) (prefix ++ $":" ++ name)
| named_other before prefix uri after name : xml_name name -> uri <> DISP -> uri <> SP -> (forall a b, uri <> a ++ PDS ++ b) ->
    events = before ++ (prefix, uri) :: after -> ~ In uri (map snd before) ->
    named events ($"{" ++ uri ++ $"}" ++ name) (match prefix with [] => name | _ => prefix ++ $":" ++ name end).
(** namespaces have no braces; prefixes are names, without spaces *)
Definition proper (events : list (str * str)) : Prop :=
  Forall (fun ns => xml_name (fst ns) /\ Forall (fun c => is_space c = false) (fst ns) /\ ~ In "{"%char (snd ns) /\ ~ In "}"%char (snd ns)) events.

(** ** Text *)
Definition blank (s : str) : Prop := Forall (fun c => is_space c = true) s.
Inductive words : str -> list str -> Prop :=
| words_nil s : blank s -> words s []
| words_cons space w rest ws : blank space -> w <> [] -> Forall (fun c => is_space c = false) w ->
    match rest with [] => True | c :: _ => is_space c = true end -> words rest ws -> words (space ++ w ++ rest) (w :: ws).
(** a character that ends a line: LF, VT, FF, CR, FS, GS, RS *)
Definition line_end (c : ascii) : Prop := In (N_of_ascii c) [10; 11; 12; 13; 28; 29; 30]%N.
(** one line has words, and there is nothing else but white space *)
Definition one_line (s : str) : Prop :=
  exists before line after, s = before ++ line ++ after /\ blank before /\ blank after /\ ~ blank line /\ Forall (fun c => ~ line_end c) line.
(** the text to be shown for an element: [leaf] if it has no children *)
Inductive text_shown (leaf : bool) : option str -> option str -> Prop :=
| shown_none : text_shown leaf None None
| shown_blank t : blank t -> text_shown leaf (Some t) None
| shown_words t ws : leaf = true -> one_line t -> words t ws -> text_shown leaf (Some t) (Some (join $" " ws))
| shown_lines t : leaf = false \/ ~ one_line t -> ~ blank t -> text_shown leaf (Some t) (Some t).

(** ** Elements and values at a path of names *)
Definition elements_named (nm : str -> str) (k : str) (e : xml) : list xml := filter (fun c => str_eqb (nm (tag_of c)) k) (children e).
Fixpoint elements_at (nm : str -> str) (path : list str) (e : xml) : list xml :=
  match path with [] => [e] | k :: path => flat_map (elements_at nm path) (elements_named nm k e) end.
(** MultiDict.getall *)
Definition getall (k : str) (v : pv) : list pv :=
  match v with PMulti kvs => map snd (filter (fun kv => str_eqb (fst kv) k) kvs) | _ => [] end.
Fixpoint values_at (path : list str) (v : pv) : list pv :=
  match path with [] => [v] | k :: path => flat_map (values_at path) (getall k v) end.

(** ** What is shown of one element: its text, or the names of its children, those with
    the same name together, in the order in which the names first appear. *)
Fixpoint firsts (l : list str) : list str :=
  match l with [] => [] | x :: l => x :: filter (fun y => negb (str_eqb x y)) (firsts l) end.
Definition count (k : str) (l : list str) : nat := List.length (filter (fun x => str_eqb x k) l).
Definition together (l : list str) : list str := flat_map (fun k => repeat k (count k l)) (firsts l).
Inductive content (nm : str -> str) (e : xml) : pv -> Prop :=
| content_text t : children e = [] -> text_shown true (text_of e) (Some t) -> content nm e (PStr t)
| content_none : children e = [] -> text_shown true (text_of e) None -> attributes e = [] -> content nm e PNone
| content_empty : children e = [] -> text_shown true (text_of e) None -> attributes e <> [] -> content nm e (PMulti [])
| content_node kvs t : children e <> [] -> text_shown false (text_of e) t -> map fst kvs = together (map (fun c => nm (tag_of c)) (children e)) ->
    content nm e (PMulti (kvs ++ match t with Some t => [($"_text", PStr t)] | None => [] end)).
(** no child takes the name under which the text of its parent is shown *)
Definition tidy (nm : str -> str) (e : xml) : Prop :=
  forall t, text_shown false (text_of e) (Some t) -> ~ In $"_text" (map (fun c => nm (tag_of c)) (children e)).
(** children with the same name stand together *)
Definition contiguous (l : list str) : Prop := forall a x b y c, l = a ++ x :: b ++ y :: c -> x = y -> Forall (fun z => z = x) b.

(** ** What unpacking means for any nested mapping: lists give one entry per item *)
Fixpoint entries (k : str) (v : pv) : list (str * pv) :=
  match v with
  | PTuple l => flat_map (entries k) l
  | PDict d | PMulti d => [(k, PMulti (flat_map (fun kv => entries (fst kv) (snd kv)) d))]
  | v => [(k, v)]
  end.
