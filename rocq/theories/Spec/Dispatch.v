(** Specification for C33: which loader an object goes to. *)
From Verif.Base Require Export Py Val.
From Verif.Model Require Import Files Dispatch.
Definition mentions (w p : str) : Prop := exists a b, p = a ++ w ++ b.
Definition mentions_any (ws : list str) (p : str) : Prop := exists w, In w ws /\ mentions w p.
(** the file's name has one of these extensions, in any letter case, not necessarily last *)
Definition has_extension (exts : list str) (fn : str) : Prop := exists e, In e exts /\ In e (suffixes (lower fn)).
(** the first rule whose condition holds decides *)
Inductive first_rule : list (Prop * kind) -> kind -> Prop :=
| rule_applies (C : Prop) k rules : C -> first_rule ((C, k) :: rules) k
| rule_skipped (C : Prop) k rules k' : ~ C -> first_rule rules k' -> first_rule ((C, k) :: rules) k'.
Definition words_of_tables : list str :=
  [$"TABLE"; $"SPREADSHEET"; $"CONTAINER"; $"SERIES"; $"SPECTRUM"; $"HISTOGRAM"; $"FILE"].
Definition rules (special : str -> bool) (data_set_id fn p : str) : list (Prop * kind) :=
  [ (mentions $"TIFF" p /\ ~ mentions $"IMAGE" p /\ ~ mentions $"DOCUMENT" p, KTrivial);
    (mentions $"STRUCTURE" p, KTrivial);
    (mentions $"PDS_OBJECT" p, KTrivial);
    (special p = true, KTrivial);
    (p = $"LABEL", KLabel);
    (has_extension [$".fits"; $".fit"; $".fz"] fn, KFits);
    (has_extension [$".bmp"; $".tif"; $".tiff"; $".jp2"; $".jpf"; $".jpc"; $".jpx"; $".jpg"; $".jpeg"; $".gif"; $".png"; $".webp"] fn, KCompressedImage);
    (mentions $"SLN-L-SP" data_set_id /\ mentions $"SPECTRUM" p, KImage);
    (mentions $"SLN-L-SP" data_set_id /\ mentions $"ANCILLARY_AND_SUPPLEMENT_DATA" p, KTable);
    (mentions_any [$"TEXT"; $"PDF"; $"MAP_PROJECTION_CATALOG"; $"FILENAME"; $"DESC"] p, KText);
    (mentions $"ARRAY" p, KArray);
    (mentions_any words_of_tables p /\ ~ (exists w, In w words_of_tables /\ (mentions (w ++ $"_HEADER") p \/ mentions (w ++ $"_NAME") p))
       /\ ~ mentions $"HISTOGRAM_IMAGE" p, KTable);
    (mentions $"HEADER" p, KHeader);
    (mentions_any [$"IMAGE"; $"QUB"; $"XDR_DOCUMENT"] p, KImage);
    (True, KTBD) ].
Definition digit (c : ascii) : Prop := (48 <= nat_of_ascii c <= 57)%nat.
Definition numbered (p : str) (ds : str) : str := p ++ "_"%char :: ds.
(** objects that load_all leaves alone *)
Definition ignorable (name : str) : Prop :=
  (exists t, name = $"DATA_SET_MAP_PROJECT" ++ t) \/ (exists t, name = t ++ $"_DESC") \/
  (exists t, name = t ++ $"DESCRIPTION") \/ (exists t ds, Forall digit ds /\ name = t ++ $"DESCRIPTION" ++ "_"%char :: ds).
