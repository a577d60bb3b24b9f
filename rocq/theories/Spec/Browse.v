(** Specification for C37 and C38: what a browse image should show. *)
From Coq Require Import QArith Qabs Qminmax.
From Verif.Base Require Export Py Val Numpy Float.
From Verif.Model Require Import Scaling Browse.
From Verif.Spec Require Export Scaling.
Open Scope Z_scope.

(** ** Brightness *)
(** the values of the elements that are not masked *)
Definition shown_values (p : picture) : list Q :=
  flat_map (fun c => if masked c then [] else match val c with Fin q => [q] | _ => [] end) (ravel (cells p)).
(** every element that is not masked is a (finite) number of the array's type *)
Definition proper_picture (p : picture) : Prop :=
  proper_type (pdt p) /\
  forall idx, valid (shape (cells p)) idx -> masked (at_ (cells p) idx) = false ->
    exists q, val (at_ (cells p) idx) = Fin q /\ holds (pdt p) q.
Definition clamp (lo hi x : Q) : Q := Qmin (Qmax lo x) hi.
(** black (0) at [lo] and below, white (255) at [hi] and above, linear between *)
Definition shade (lo hi x : Q) : Q := (255 * (clamp lo hi x - lo) / (hi - lo))%Q.
(** the array type computed with: small integers are widened *)
Definition widened (d : dt) : dt := match d with DInt s b => if b <=? 2 then DInt true 4 else d | _ => d end.
(** limits whose distance the arithmetic of the type can deal with *)
Definition scalable (d : dt) (purge : bool) (lo hi : Q) : Prop :=
  (lo < hi)%Q /\ let span := (hi - lo)%Q in
  match d with
  | DInt s b => (span * (if purge then 255 else 1) < inject_Z (2 ^ (if s then 8 * b - 1 else 8 * b)))%Q
  | DF32 => (two_to (-118) <= span <= two_to (if purge then 118 else 126))%Q
  | DF64 => (two_to (-1014) <= span <= two_to (if purge then 1014 else 1022))%Q
  end.
(** how far a byte may be from the exact shade *)
Definition near (d : dt) (purge : bool) (b : Z) (s : Q) : Prop :=
  match d, purge with
  | DInt _ _, true => (inject_Z b <= s < inject_Z b + 1)%Q
  | _, _ => (Qabs (inject_Z b - s) <= (1 # 2) + (1 # 4096))%Q
  end.
(** what is shown of the element [idx], in colour channel [k] if there are channels *)
Definition shown (p : picture) (color : fill) (out : arr (option Z)) (idx : list nat) (k : nat) : option Z :=
  match is_ma p, color, shape (cells p) with
  | true, FillColor _ _ _, [_; _] => at_ out (idx ++ [k])
  | _, _, _ => at_ out idx
  end.
Definition count {A} (f : A -> bool) (l : list A) : Z := Z.of_nat (List.length (filter f l)).
Definition below (x y : Q) : bool := negb (Qle_bool x y).

(** ** Bands *)
(** the band counted from the end when negative *)
Definition counted (n : nat) (i : Z) (j : nat) : Prop :=
  (j < n)%nat /\ (i = Z.of_nat j \/ i = Z.of_nat j - Z.of_nat n).
(** [b] is band [j] of [a], bands being along axis [ax] *)
Definition is_band {A} (a : arr A) (ax j : nat) (b : arr A) : Prop :=
  match shape a, ax with
  | [n; r; c], 0%nat => shape b = [r; c] /\ forall y x, at_ b [y; x] = at_ a [j; y; x]
  | [r; n; c], 1%nat => shape b = [r; c] /\ forall y x, at_ b [y; x] = at_ a [y; j; x]
  | [c; r; n], 2%nat => shape b = [r; c] /\ forall y x, at_ b [y; x] = at_ a [x; y; j]
  | _, _ => False
  end.
(** an RGB image of three bands *)
Definition is_rgb {A} (a : arr A) (ax i j k : nat) (b : arr A) : Prop :=
  exists red green blue, is_band a ax i red /\ is_band a ax j green /\ is_band a ax k blue /\
    shape b = shape red ++ [3%nat] /\
    forall y x, at_ b [y; x; 0%nat] = at_ red [y; x] /\ at_ b [y; x; 1%nat] = at_ green [y; x] /\ at_ b [y; x; 2%nat] = at_ blue [y; x].
Definition bands {A} (a : arr A) (ax : nat) : nat := nth ax (shape a) 0%nat.
(** a 3-D array and one of its axes *)
Definition cube {A} (a : arr A) (ax : nat) : Prop := List.length (shape a) = 3%nat /\ (ax < 3)%nat.
(** the middle band of n: n/2, and of the two nearest to it the even one when n is odd *)
Definition is_middle (n j : nat) : Prop :=
  (j < n)%nat /\ ((2 * j = n)%nat \/ ((2 * j = n + 1 \/ 2 * j + 1 = n)%nat /\ Nat.even j = true)).
