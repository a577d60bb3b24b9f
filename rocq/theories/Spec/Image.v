(** Where the samples of an image are in its file, and which padding a label declares. *)
From Verif.Base Require Import Py Numpy.
From Verif.Model Require Types.
From Verif.Model Require Import Image.
Open Scope nat_scope.

(** The bytes of the [k]-th [w]-byte item counted from byte [start]. *)
Definition item (file : list ascii) (start w k : nat) : list ascii := firstn w (skipn (start + k * w) file).
(** Storage orders of an image with [nb] bands, [nl] lines, [ns] samples:
    the linear position of sample (b, l, s). *)
Inductive storage := BSQ | BIP | BIL.
Definition position (t : storage) (nb nl ns b l s : nat) : nat :=
  match t with
  | BSQ => (b * nl + l) * ns + s
  | BIP => (l * ns + s) * nb + b
  | BIL => (l * nb + b) * ns + s
  end.
(** The storage order named by BAND_STORAGE_TYPE; unknown names mean BSQ. *)
Definition storage_named (t : str) : storage :=
  if str_eqb t $"SAMPLE_INTERLEAVED" then BIP else if str_eqb t $"LINE_INTERLEAVED" then BIL else BSQ.
(** A name that asks for the pixels, not for the line prefixes or suffixes. *)
Definition image_name (name : str) : Prop := contains $"PREFIX" name = false /\ contains $"SUFFIX" name = false.
(** No padding keywords at all. *)
Definition no_planes (f : fixes) : Prop := forall a s, item_bytes f a s = None.
Definition no_linefix (f : fixes) : Prop := forall s, line_bytes f s = None \/ line_bytes f s = Some 0.
(** The label declares [n] pixels of line prefix or suffix. *)
Definition declares_linefix (f : fixes) (bpp : nat) (sd : side) (n : nat) : Prop :=
  (n = 0 /\ (line_bytes f sd = None \/ line_bytes f sd = Some 0)) \/
  (0 < n /\ line_bytes f sd = Some (n * bpp)).
(** The label declares planes [n] pixels thick along axis [ax]: either one item
    size and a count of items per axis, or a list of equal item sizes. *)
Definition declares_planes (f : fixes) (names : list str) (bpp : nat) (sd : side) (ax : axis) (n : nat) : Prop :=
  (exists k counts i c, item_bytes f ax sd = Some (One k) /\ items f sd = Some counts /\
     nth_error names i = Some (axis_name ax) /\ nth_error counts i = Some c /\ c * k = n * bpp) \/
  (exists k m counts, item_bytes f ax sd = Some (Many (repeat k m)) /\ items f sd = Some counts /\ m * k = n * bpp).
Definition planes_or_none (f : fixes) (names : list str) (bpp : nat) (sd : side) (ax : axis) (n : nat) : Prop :=
  (n = 0 /\ item_bytes f ax sd = None) \/ declares_planes f names bpp sd ax n.
(** VAX reals are converted after reading. *)
Definition sample_value {A} (dec : str -> list ascii -> A) (from_vax32 : A -> A) (type_name dt : str) (bytes : list ascii) : A :=
  if str_eqb type_name $"VAX_REAL" then from_vax32 (dec dt bytes) else dec dt bytes.
(** The label's sample type is read as numpy type [dt], of [w] bytes. *)
Definition typed (type_name : str) (bpp : nat) (for_numpy : bool) (dt : str) (w : nat) : Prop :=
  type_name <> [] /\ Types.sample_types type_name bpp for_numpy = Ok dt /\
  exists m, numpy_meaning dt = Some m /\ t_size m = w /\ 0 < w.
(** QUBE labels: AXIS_NAME lists the axes fastest first. *)
Definition fastest_first (t : storage) : list str :=
  match t with
  | BSQ => [$"SAMPLE"; $"LINE"; $"BAND"]
  | BIP => [$"BAND"; $"SAMPLE"; $"LINE"]
  | BIL => [$"SAMPLE"; $"BAND"; $"LINE"]
  end.
Definition qube_storage (q : qube_block) (names : list str) (t : storage) : Prop :=
  (exists s, QBST q = Some s /\ storage_named s = t) \/ (QBST q = None /\ names = fastest_first t).
(** The number of core items along an axis. *)
Definition core_count (q : qube_block) (names : list str) (ax : axis) (n : nat) : Prop :=
  exists i, nth_error names i = Some (axis_name ax) /\ nth_error (CORE_ITEMS q) i = Some n.
