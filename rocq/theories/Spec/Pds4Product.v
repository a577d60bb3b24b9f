(** Specification for C84: what the XML label of a PDS4 product says about its arrays and
    tables, in terms of the tree the XML parser makes, independently of how it is read. *)
From Coq Require Import QArith.
From Verif.Base Require Import Py Val.
From Verif.Model Require Import Types Scaling Pds4Types Pds4Values Xml.
From Verif.Spec Require Import Scaling Pds4Types Pds4Values Xml.
From Verif.Model Require Import Pds4Tables Pds4Frame.
From Verif.Spec Require Import Pds4Tables Pds4Frame Objects.
Open Scope nat_scope.

(** ** Elements *)
Local Notation parts e := (Spec.Xml.children e).
(** [e] is an element [n] of PDS, with or without its namespace *)
Definition called (e : xml) (n : str) : Prop := tag_of e = n \/ tag_of e = $"{" ++ PDS ++ $"}" ++ n.
(** the elements of a label have names, of PDS or of other namespaces *)
Definition has_name (e : xml) : Prop :=
  exists n, xml_name n /\
    (called e n \/ exists uri, tag_of e = $"{" ++ uri ++ $"}" ++ n /\ ~ In "{"%char uri /\ ~ In "}"%char uri /\ forall a b, uri <> a ++ PDS ++ b).
Definition well_named (label : xml) : Prop := forall e, inside e label -> has_name e.
(** [c] is the only child [n] of [e]; there is one; there is none *)
Definition only (e : xml) (n : str) (c : xml) : Prop :=
  exists before after, parts e = before ++ c :: after /\ called c n /\ Forall (fun x => ~ called x n) (before ++ after).
Definition has_child (e : xml) (n : str) : Prop := exists c, In c (parts e) /\ called c n.
Definition lacks (e : xml) (n : str) : Prop := Forall (fun x => ~ called x n) (parts e).
(** what the only child [n] says: a text, or a whole number *)
Definition gives (e : xml) (n s : str) : Prop := exists c, only e n c /\ parts c = [] /\ text_shown true (text_of c) (Some s).
Definition gives_number (e : xml) (n : str) (z : Z) : Prop := exists s, gives e n s /\ int_text 10 s z.
Definition may_give (e : xml) (n : str) (o : option str) : Prop := match o with Some s => gives e n s | None => lacks e n end.
Definition may_give_number (e : xml) (n : str) (o : option Z) : Prop := match o with Some z => gives_number e n z | None => lacks e n end.
(** a text that is no number *)
Definition worded (s : str) : Prop := (forall z, ~ int_text 10 s z) /\ (forall v, ~ real_text s v).

(** ** Structures *)
Definition TABLES : list str := [$"Table_Character"; $"Table_Binary"; $"Table_Delimited"; $"Inventory"].
Definition kind_is (e : xml) (k : str) : Prop :=
  (k = $"HEADER" /\ occurs $"Header" (tag_of e)) \/
  (k = $"ARRAY" /\ ~ occurs $"Header" (tag_of e) /\ occurs $"Array" (tag_of e)) \/
  (k = $"TABLE" /\ exists n, In n TABLES /\ called e n).
(** kind and names of a structure *)
Definition entitled (e : xml) (s : structure) : Prop :=
  kind_is e (s_kind s) /\ may_give e $"local_identifier" (s_local s) /\ may_give e $"name" (s_name s).

(** ** Products *)
(** the file of a file area: its first element tells it *)
Definition names_file (area : xml) (f : str) : Prop :=
  exists file rest, parts area = file :: rest /\ called file $"File" /\ Forall (fun c => parts c = []) (parts file) /\ gives file $"file_name" f.
(** the structures of a file area, in the order of the label, with the name of their file *)
Definition area_lists (area : xml) (l : list (str * xml)) : Prop :=
  exists f cs, names_file area f /\ picked (fun c => exists k, kind_is c k) (parts area) cs /\ l = map (pair f) cs.
Definition FILE_AREAS : list str :=
  [$"File_Area_Observational"; $"File_Area_Observational_Supplemental"; $"File_Area_Ancillary"; $"File_Area_Browse"; $"File_Area_Inventory"].
(** those of a product: by the kind of their file area, then in the order of the label *)
Definition product_lists (label : xml) (l : list (str * xml)) : Prop :=
  exists areas ls, Forall2 (fun kind => picked (fun c => called c kind) (parts label)) FILE_AREAS areas /\
    Forall2 area_lists (concat areas) ls /\ l = concat ls.
(** the file [f] next to the label, which is in the directory [dir] *)
Inductive next_to (dir f : str) : str -> Prop :=
| next_here : dir = [] -> next_to dir f f
| next_slash d : dir = d ++ $"/" -> next_to dir f (dir ++ f)
| next_in : dir <> [] -> (forall d, dir <> d ++ $"/") -> next_to dir f (dir ++ $"/" ++ f).
Definition relative (f : str) : Prop := forall g, f <> "/"%char :: g.
(** file names that are taken for FITS files *)
Definition fits_name (f : str) : Prop := exists a e, lower f = a ++ e /\ In e [$".fits"; $".fit"; $".fits.gz"; $".fit.gz"; $".fz"].

(** ** What must be in the label for it to be read *)
Definition has_axis (e : xml) : Prop := has_child e $"axis_name" /\ has_child e $"elements" /\ exists z, gives_number e $"sequence_number" z.
(** the record of a table: Record_Character, Record_Binary or Record_Delimited *)
Definition record_of (e : xml) (type : str) (r : xml) : Prop :=
  picked (fun c => occurs $"Record_" (tag_of c)) (parts e) [r] /\ called r ($"Record_" ++ type) /\ In type [$"Character"; $"Binary"; $"Delimited"].
Definition sufficient (e : xml) : Prop :=
  (kind_is e $"HEADER" -> has_child e $"object_length" /\ has_child e $"offset" /\ has_child e $"parsing_standard_id") /\
  (kind_is e $"ARRAY" -> has_child e $"offset" /\ has_child e $"axes" /\
     (exists axes, picked (fun c => called c $"Axis_Array") (parts e) axes /\ axes <> [] /\ Forall has_axis axes) /\
     (exists el, only e $"Element_Array" el /\ has_child el $"data_type")) /\
  (kind_is e $"TABLE" -> has_child e $"offset" /\ has_child e $"records" /\
     exists type r, record_of e type r /\ has_child r $"fields" /\ has_child r $"groups" /\
       (type = $"Delimited" -> has_child e $"record_delimiter" /\ has_child e $"field_delimiter") /\
       (type <> $"Delimited" -> has_child r $"record_length")).

(** ** Arrays *)
Definition describes_axis (e : xml) (a : Z * nat) : Prop :=
  gives_number e $"sequence_number" (fst a) /\ gives_number e $"elements" (Z.of_nat (snd a)).
(** without a bit mask *)
Definition describes_array (e : xml) (offset : nat) (axes : list (Z * nat)) (type : str) : Prop :=
  kind_is e $"ARRAY" /\ gives_number e $"offset" (Z.of_nat offset) /\
  (exists l, picked (fun c => called c $"Axis_Array") (parts e) l /\ Forall2 describes_axis l axes) /\
  (exists el, only e $"Element_Array" el /\ gives el $"data_type" type) /\ lacks e $"Object_Statistics".

(** ** Tables *)
(** the elements that may be in fields and in groups *)
Definition FIELD_PARTS : list str :=
  [$"name"; $"field_number"; $"field_location"; $"data_type"; $"field_length"; $"maximum_field_length"; $"field_format"; $"validation_format";
   $"unit"; $"scaling_factor"; $"value_offset"; $"description"; $"Special_Constants"; $"Field_Statistics"].
Definition GROUP_PARTS (type : str) : list str :=
  [$"name"; $"group_number"; $"repetitions"; $"fields"; $"groups"; $"description"; $"group_location"; $"group_length"; $"Field_" ++ type; $"Group_Field_" ++ type].
Definition made_of (names : list str) (e : xml) : Prop := Forall (fun c => exists n, In n names /\ called c n) (parts e).
(** in delimited tables there are no locations and lengths *)
Definition placed (type what : str) (e : xml) (l n : Z) : Prop :=
  if str_eqb type $"Delimited" then l = 0%Z /\ n = 0%Z else gives_number e (what ++ $"_location") l /\ gives_number e (what ++ $"_length") n.
Definition describes_field (type : str) (e : xml) (name : str) (l n : Z) (t : str) : Prop :=
  called e ($"Field_" ++ type) /\ made_of FIELD_PARTS e /\ gives e $"name" name /\ gives e $"data_type" t /\ worded t /\ placed type $"field" e l n.
Definition describes_group (type : str) (e : xml) (name : option str) (r : nat) (l n : Z) : Prop :=
  called e ($"Group_Field_" ++ type) /\ made_of (GROUP_PARTS type) e /\ may_give e $"name" name /\ gives_number e $"repetitions" (Z.of_nat r) /\
  has_child e $"fields" /\ has_child e $"groups" /\ placed type $"group" e l n.
(** the fields and groups among the children of an element, and the types of the fields *)
Inductive lists_fields (type : str) : list xml -> list Spec.Pds4Frame.named -> list str -> Prop :=
| lf_nil : lists_fields type [] [] []
| lf_other c cs F T : ~ called c ($"Field_" ++ type) -> ~ called c ($"Group_Field_" ++ type) -> lists_fields type cs F T -> lists_fields type (c :: cs) F T
| lf_field c name l n t cs F T : describes_field type c name l n t -> lists_fields type cs F T -> lists_fields type (c :: cs) (NF name l n :: F) (t :: T)
| lf_group c name r l n inner T' cs F T : describes_group type c name r l n -> lists_fields type (parts c) inner T' -> lists_fields type cs F T ->
    lists_fields type (c :: cs) (NG name r l n inner :: F) (T' ++ T).
Definition type_of (k : table_kind) : str := match k with Character => $"Character" | Binary => $"Binary" | Delimited => $"Delimited" end.
(** [records] records from byte [offset] of the file, whose fields are [F] of types [T] *)
Definition describes_table (k : table_kind) (e r : xml) (records offset : nat) (F : list Spec.Pds4Frame.named) (T : list str) : Prop :=
  (called e ($"Table_" ++ type_of k) \/ (k = Delimited /\ called e $"Inventory")) /\ record_of e (type_of k) r /\ lacks e $"Uniformly_Sampled" /\
  gives_number e $"records" (Z.of_nat records) /\ gives_number e $"offset" (Z.of_nat offset) /\
  (exists z, gives_number r $"fields" z) /\ (exists z, gives_number r $"groups" z) /\ lists_fields (type_of k) (parts r) F T.
Definition describes_fixed (k : table_kind) (e : xml) (records offset record_length : nat) (F : list Spec.Pds4Frame.named) (T : list str) : Prop :=
  exists r, describes_table k e r records offset F T /\ gives_number r $"record_length" (Z.of_nat record_length).
Definition FIELD_DELIMITERS : list (str * ascii) :=
  [($"Comma", ","%char); ($"Horizontal Tab", "009"%char); ($"Semicolon", ";"%char); ($"Vertical Bar", "|"%char)].
Definition RECORD_DELIMITERS : list (str * str) := [($"Line-Feed", [NL]); ($"Carriage-Return Line-Feed", [CR; NL])].
Definition describes_delimited (e : xml) (records offset : nat) (d : ascii) (rd : str) (object_length maximum_record_length : option Z) (F : list Spec.Pds4Frame.named) (T : list str) : Prop :=
  exists r dn rn, describes_table Delimited e r records offset F T /\
    In (dn, d) FIELD_DELIMITERS /\ gives e $"field_delimiter" dn /\ In (rn, rd) RECORD_DELIMITERS /\ gives e $"record_delimiter" rn /\
    may_give_number e $"object_length" object_length /\ may_give_number r $"maximum_record_length" maximum_record_length.
