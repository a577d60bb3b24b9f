(** Specification for C80: which pixels get_scaled masks. *)
From Coq Require Import QArith.
From Verif.Base Require Import Py Val Numpy.
From Verif.Model Require Import Types Scaling.
From Verif.Spec Require Import Scaling Pds4Values Array.
From Verif.Spec Require PdsImage.
Open Scope Z_scope.

(** each special constant that the block names is an integer (or the first of a list is), or N/A *)
Definition integer_constants (m : multidict) : Prop :=
  forall name v, In name PDS3_CONSTANT_NAMES -> md_get m name = Some v ->
    v = PStr $"N/A" \/ exists z, v = PInt z \/ exists vs, v = PTuple (PInt z :: vs).
(** ... is a number that doubles hold *)
Definition double_constants (m : multidict) : Prop :=
  forall name v, In name PDS3_CONSTANT_NAMES -> md_get m name = Some v ->
    v = PStr $"N/A" \/ exists k, label_constant m name k /\ double_exact (scalar_q k).
(** in an image of elements of type [d], of which those are [occurs], [z] is a special constant:
    one customary for the type (8-bit unsigned integers have none), or one that the block gives
    under a name that no customary one in the image has *)
Definition special_integer (m : multidict) (d : dt) (occurs : Z -> Prop) (z : Z) : Prop :=
  exists name,
    (~ is_uint8 d /\ customary d name (inject_Z z)) \/
    (exists k, label_constant m name k /\ (scalar_q k == inject_Z z)%Q /\
       forall y, occurs y -> ~ is_uint8 d -> ~ customary d name (inject_Z y)).
(** the constants known for the product, if there are any, are used instead *)
Definition masks (special : list (str * const)) (m : multidict) (d : dt) (occurs : Z -> Prop) (z : Z) : Prop :=
  (special = [] /\ special_integer m d occurs z) \/ exists name, In (name, CNum (SI z)) special.
Definition integers_only (special : list (str * const)) : Prop := Forall (fun kc => exists z, snd kc = CNum (SI z)) special.

(** ** Types: samples of [w] bytes of the type [type] of an image, or items of a qube *)
Definition says_samples (m : multidict) (name type : str) (w : nat) (o : byte_order) (f : format) : Prop :=
  (~ PdsImage.of_qube name /\ PdsImage.says_count m $"SAMPLE_BITS" (8 * w) /\ PdsImage.holds m $"SAMPLE_TYPE" (PStr type) /\ pds3_type type w o f) \/
  (PdsImage.of_qube name /\ PdsImage.qube_type type w o f /\ exists c, PdsImage.core_of m c /\ PdsImage.says_count c $"CORE_ITEM_BYTES" w /\ PdsImage.holds c $"CORE_ITEM_TYPE" (PStr type)).
Definition element_type (f : format) (w : nat) : dt :=
  match f with Integer s => DInt s (Z.of_nat w) | _ => if (w =? 4)%nat then DF32 else DF64 end.
(** all elements are numbers of one format *)
Definition elements_are (o : byte_order) (f : format) (w : nat) (a : arr Array.cell) : Prop :=
  forall idx, valid (shape a) idx -> exists bs, cell_holds o f w bs (at_ a idx).
(** an integer, or a number, of an array *)
Definition integer_at (a : arr Array.cell) (idx : list nat) (z : Z) : Prop := valid (shape a) idx /\ at_ a idx = Array.CNum (Pds4Types.EI z).
Definition real_at (a : arr Array.cell) (idx : list nat) (x : num) : Prop := valid (shape a) idx /\ at_ a idx = Array.CNum (Pds4Types.EF x).

(** real numbers are masked if they are not finite, or a constant that the block gives *)
Definition masks_real (special : list (str * const)) (m : multidict) (x : num) : Prop :=
  (special = [] /\ ((forall q, x <> Fin q) \/ exists name k q, label_constant m name k /\ x = Fin q /\ (q == scalar_q k)%Q)) \/
  exists name k q, In (name, CNum k) special /\ x = Fin q /\ (q == scalar_q k)%Q.
Definition doubles_only (special : list (str * const)) : Prop := Forall (fun kc => exists k, snd kc = CNum k /\ double_exact (scalar_q k)) special.
(** no element is, in the array's precision, a constant customary for its type *)
Definition nothing_customary (a : arr Array.cell) (d : dt) : Prop :=
  forall idx x name q, real_at a idx (Fin x) -> customary d name q -> ~ (x == match d with DF32 => round32 q | _ => round64 q end)%Q.
(** the integer in these bytes *)
Definition integer_in (o : byte_order) (sg : bool) (w : nat) (v : Z) (bs : list ascii) : Prop := of_width sg w v /\ written o w v bs.
