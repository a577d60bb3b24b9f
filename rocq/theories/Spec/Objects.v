(** Specification for C75 and C76: the objects a PDS3 label points to, and the files it names for them. *)
From Verif.Base Require Export Py Val.
From Verif.Spec Require Export Table.
From Verif.Model Require Import Files Pvl. (* the types path, fsys and order *)
From Verif.Spec Require Import Pvl. (* the keys of a label in document order *)

Definition mentions (word name : str) : Prop := exists a b, name = a ++ word ++ b.
(** those elements of a list that have a property, in order *)
Inductive picked {A} (P : A -> Prop) : list A -> list A -> Prop :=
| picked_nil : picked P [] []
| picked_one x l l' : P x -> picked P l l' -> picked P (x :: l) (x :: l')
| passed_over x l l' : ~ P x -> picked P l l' -> picked P (x :: l) l'.

(** ** C75 *)
(** objects that are never shown: TIFF headers and tags, format definitions, internal objects *)
Definition hidden (name : str) : Prop :=
  (mentions $"TIFF" name /\ ~ mentions $"IMAGE" name /\ ~ mentions $"DOCUMENT" name) \/
  mentions $"STRUCTURE" name \/ mentions $"PDS_OBJECT" name.
Definition shown (name : str) : Prop := ~ hidden name.
Definition image_name (name : str) : Prop := mentions $"IMAGE" name /\ ~ mentions $"TABLE" name.
(** the items of a mapping, if it is one *)
Definition as_block (v : pv) : option multidict := match v with PMulti b | PDict b => Some b | _ => None end.
Section Blocks.
(** the block the label has for a name *)
Variable block : str -> option multidict.
Definition points_to_format (kv : str * pv) : Prop := structure_pointer (fst kv).
(** the label describes line prefixes of an image by one format file; by several *)
Definition one_format (n : str) : Prop := exists b kv, block n = Some b /\ picked points_to_format b [kv].
Definition several_formats (n : str) : Prop := exists b kv kv' l, block n = Some b /\ picked points_to_format b (kv :: kv' :: l).
(** ... and not by ^LINE_PREFIX_STRUCTURE = "" *)
Definition prefixed (n : str) : Prop :=
  exists b k v, block n = Some b /\ picked points_to_format b [(k, v)] /\ ~ (k = $"^LINE_PREFIX_STRUCTURE" /\ v = PStr []).
(** a line prefix object that is pointed to, but not described *)
Definition undescribed_prefix (n : str) : Prop := mentions $"LINE_PREFIX" n /\ block n = None.
End Blocks.
Definition prefix_table (image : str) : str := image ++ $"_LINE_PREFIX_TABLE".
Definition pointer (name : str) : str := "^"%char :: name.
(** the names the label points to, at any level, in the order in which the library walks
    labels: document order, or the keys of each block before those of the blocks in it *)
Fixpoint keys_by_level (v : pv) : list str :=
  match v with
  | PMulti kvs => map fst kvs ++ flat_map (fun kv => keys_by_level (snd kv)) kvs
  | _ => []
  end.
Definition pointed_to (o : order) (m : multidict) (names : list str) : Prop :=
  picked (fun k => exists n, k = pointer n) (match o with DepthFirst => keys_of (PMulti m) | LevelFirst => keys_by_level (PMulti m) end)
    (map pointer names).

(** products whose objects are listed regardless of their labels: MSL cameras' EDRs, Chang'E-3 VNIS *)
Definition msl_camera_edr (ident : str -> str) : Prop :=
  ident $"INSTRUMENT_HOST_NAME" = $"MARS SCIENCE LABORATORY" /\
  In (ident $"INSTRUMENT_ID") [$"MAHLI"; $"MAST_RIGHT"; $"MAST_LEFT"; $"MARDI"] /\ mentions $"EDR" (ident $"DATA_SET_ID").
Definition vnis_product (kind : str) (ident : str -> str) : Prop :=
  ident $"SPACECRAFT_NAME" = $"Chang'E-3 Rover" /\ mentions ($"CE3_BMYK_VNIS-" ++ kind) (ident $"PRODUCT_ID") /\ mentions $".2A" (ident $"PRODUCT_ID").
Inductive special_product (ident : str -> str) : list str -> Prop :=
| msl_camera : msl_camera_edr ident -> special_product ident [$"IMAGE"; $"MODEL_DESC"]
| vnis_image : ~ msl_camera_edr ident -> vnis_product $"CC_SCI_N" ident -> special_product ident [$"LABEL"; $"IMAGE_PREFIX"; $"IMAGE"]
| vnis_table : ~ msl_camera_edr ident -> ~ vnis_product $"CC_SCI_N" ident ->
    vnis_product $"SC_SCI_N_" ident \/ vnis_product $"SD_SCI_N_" ident -> special_product ident [$"LABEL"; $"TABLE"].

(** ** C76 *)
(** a file name without directories *)
Definition bare_name (name : str) : Prop := ~ In "/"%char name.
(** a value of a pointer that names a file: alone, or first in a sequence *)
Definition names_file (v : pv) (name : str) : Prop := v = PStr name \/ exists l, v = PTuple (PStr name :: l).
Definition names_no_file (v : pv) : Prop :=
  (forall name, ~ names_file v name) /\ v <> PTuple [].
(** the same name in each directory *)
Definition in_directories (dirs : list str) (name : str) : list path := map (fun d => mkPath d name) dirs.
