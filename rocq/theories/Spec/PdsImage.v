(** Specification for C79 and C80: what a PDS3 label says about an image or a qube, and
    the numbers its file holds. *)
From Coq Require Import QArith Permutation.
From Verif.Base Require Import Py Val Numpy.
From Verif.Model Require Import Image. (* sides and axes *)
From Verif.Spec Require Import Types Pds4Values Array Image.
Open Scope nat_scope.

Definition holds (m : multidict) (k : str) (v : pv) : Prop := md_get m k = Some v.
Definition lacks (m : multidict) (k : str) : Prop := md_get m k = None.
Definition says_count (m : multidict) (k : str) (n : nat) : Prop := holds m k (PInt (Z.of_nat n)).
Definition says_counts (m : multidict) (k : str) (l : list nat) : Prop := holds m k (PTuple (map (fun n => PInt (Z.of_nat n)) l)).

(** ** Images: [nl] lines of [ns] samples of [w] bytes *)
Definition says_image (m : multidict) (type : str) (w nl ns : nat) : Prop :=
  says_count m $"SAMPLE_BITS" (8 * w) /\ holds m $"SAMPLE_TYPE" (PStr type) /\
  says_count m $"LINES" nl /\ says_count m $"LINE_SAMPLES" ns.
(** one band: BANDS is 1 or not given *)
Definition one_band (m : multidict) : Prop :=
  lacks m $"BANDS" \/
  (says_count m $"BANDS" 1 /\ (lacks m $"BAND_STORAGE_TYPE" \/ exists t, holds m $"BAND_STORAGE_TYPE" (PStr t))).
(** any other number of bands, stored in the order that is named *)
Definition many_bands (m : multidict) (nb : nat) (t : storage) : Prop :=
  nb <> 1 /\ says_count m $"BANDS" nb /\ exists s, holds m $"BAND_STORAGE_TYPE" (PStr s) /\ t = storage_named s.
(** BAND_PREFIX_ITEM_BYTES and so on; PREFIX_ITEMS, SUFFIX_ITEMS; LINE_PREFIX_BYTES, LINE_SUFFIX_BYTES *)
Definition side_word (s : side) : str := match s with PREFIX => $"PREFIX" | SUFFIX => $"SUFFIX" end.
Definition axis_word (a : axis) : str := match a with LINE => $"LINE" | SAMPLE => $"SAMPLE" | BAND => $"BAND" end.
Definition plane_keyword (a : axis) (s : side) : str := axis_word a ++ $"_" ++ side_word s ++ $"_ITEM_BYTES".
Definition items_keyword (s : side) : str := side_word s ++ $"_ITEMS".
Definition line_keyword (s : side) : str := $"LINE_" ++ side_word s ++ $"_BYTES".
Definition no_axis_padding (m : multidict) : Prop := forall s, lacks m (items_keyword s) /\ forall a, lacks m (plane_keyword a s).
(** each line has [n] samples of [w] bytes before or after its pixels *)
Definition line_padding (m : multidict) (w : nat) (s : side) (n : nat) : Prop :=
  (n = 0 /\ lacks m (line_keyword s)) \/ says_count m (line_keyword s) (n * w).
Definition unpadded (m : multidict) : Prop := no_axis_padding m /\ forall s, line_padding m 1 s 0.

(** ** Qubes: the keywords of the core are in the block, or in a CORE group in it *)
Definition core_of (m c : multidict) : Prop := (lacks m $"CORE" /\ c = m) \/ holds m $"CORE" (PMulti c).
Definition axis_names (m c : multidict) (names : list str) : Prop :=
  let v := PTuple (map PStr names) in holds m $"AXIS_NAME" v \/ (lacks m $"AXIS_NAME" /\ holds c $"AXIS_NAME" v).
Definition says_qube (m : multidict) (type : str) (w : nat) (names : list str) (counts : list nat) : Prop :=
  exists c, core_of m c /\ says_count c $"CORE_ITEM_BYTES" w /\ holds c $"CORE_ITEM_TYPE" (PStr type) /\
    axis_names m c names /\ says_counts c $"CORE_ITEMS" counts /\
    lacks m $"SAMPLE_TYPE" /\ lacks m $"SAMPLE_BITS" /\ forall s, lacks m (line_keyword s).
(** a storage order that is named, or that of the names of the axes (fastest first) *)
Definition says_storage (m : multidict) (names : list str) (t : storage) : Prop :=
  (exists s, holds m $"BAND_STORAGE_TYPE" (PStr s) /\ t = storage_named s) \/
  (lacks m $"BAND_STORAGE_TYPE" /\ names = fastest_first t).
(** [n] items along axis [a] *)
Definition core_size (names : list str) (counts : list nat) (a : axis) (n : nat) : Prop :=
  exists i, nth_error names i = Some (axis_word a) /\ nth_error counts i = Some n.
(** planes that are [n] items of [w] bytes thick: a size of items and their counts along each axis *)
Definition qube_planes (m : multidict) (names : list str) (w : nat) (s : side) (a : axis) (n : nat) : Prop :=
  (n = 0 /\ lacks m (plane_keyword a s)) \/
  (exists k counts i c, says_count m (plane_keyword a s) k /\ says_counts m (items_keyword s) counts /\
     nth_error names i = Some (axis_word a) /\ nth_error counts i = Some c /\ c * k = n * w).
Definition item_counts_ok (m : multidict) : Prop :=
  forall s, lacks m (items_keyword s) \/ exists l, says_counts m (items_keyword s) l.
(** the types that qubes are read with: integers of up to two bytes, and reals *)
Definition qube_type (type : str) (w : nat) (o : byte_order) (f : format) : Prop :=
  pds3_type type w o f /\ (f = Ieee \/ w <= 2).

(** ** Names of objects *)
Definition mentions (word name : str) : Prop := exists a b, name = a ++ word ++ b.
Definition of_pixels (name : str) : Prop := ~ mentions $"PREFIX" name /\ ~ mentions $"SUFFIX" name.
Definition of_prefixes (name : str) : Prop := mentions $"PREFIX" name.
Definition of_suffixes (name : str) : Prop := ~ mentions $"PREFIX" name /\ mentions $"SUFFIX" name.
Definition of_qube (name : str) : Prop := mentions $"QUBE" name.
(** an array of so many samples of each of [nl] lines, or None if there are none *)
Definition line_samples {A} (r : option (arr A)) (nl n : nat) (P : nat -> nat -> A -> Prop) : Prop :=
  match r with
  | None => n = 0
  | Some a => 0 < n /\ shape a = [nl; n] /\ forall l i, l < nl -> i < n -> P l i (at_ a [l; i])
  end.
