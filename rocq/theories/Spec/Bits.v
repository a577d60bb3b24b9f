(** Specification for C19-C21: the bits of a number, and the pieces of a bit string. *)
From Verif.Base Require Export Py Val.
Open Scope nat_scope.
(** [w] binary digits of [n], most significant first *)
Definition bit_char (n : N) (i : nat) : ascii := if N.testbit n (N.of_nat i) then "1"%char else "0"%char.
Definition bits_of (w : nat) (n : N) : str := map (bit_char n) (rev (seq 0 w)).
Definition is_byte (b : N) : Prop := (b < 256)%N.
(** the bytes of a string, in order, eight digits each *)
Definition bits_of_bytes (bs : list N) : str := flat_map (bits_of 8) bs.
(** the little-endian integer stored in some bytes *)
Fixpoint little_value (bs : list N) : N := match bs with [] => 0 | b :: bs' => (b + 256 * little_value bs')%N end.
Definition word_sizes : list nat := [1; 2; 4; 8].
Definition total (l : list nat) : nat := fold_right Nat.add 0 l.

(** bits [start .. start+n-1] (counted from 1) of a bit string *)
Definition piece_is {A} (bits : list A) (start n : Z) (p : list A) : Prop :=
  Z.of_nat (List.length p) = n /\
  forall j, (0 <= j < n)%Z -> nth_error p (Z.to_nat j) = nth_error bits (Z.to_nat (start - 1 + j)).
(** definitions that cover [bits] bits from [from] on, one after the other *)
Inductive tiles : Z -> list (Z * Z) -> Z -> Prop :=
| tiles_end z : tiles z [] z
| tiles_cons z n l e : (0 <= n)%Z -> tiles (z + n) l e -> tiles z ((z, n) :: l) e.
(** what a BIT_COLUMN definition says: one piece, or ITEMS pieces of ITEM_BITS bits *)
Inductive bit_column (m : multidict) : list (Z * Z) -> Prop :=
| bit_single s n : (md_get m $"ITEMS" = None \/ md_get m $"ITEMS" = Some (PInt 0)) ->
    md_get m $"START_BIT" = Some (PInt s) -> md_get m $"BITS" = Some (PInt n) -> bit_column m [(s, n)]
| bit_items k s n : (0 < k)%Z -> md_get m $"ITEMS" = Some (PInt k) ->
    md_get m $"START_BIT" = Some (PInt s) -> md_get m $"ITEM_BITS" = Some (PInt n) ->
    bit_column m (map (fun i => ((s + Z.of_nat i * n)%Z, n)) (seq 0 (Z.to_nat k))).
(** formats/checkers.py:748-763: instruments whose bit columns are MSB first *)
Definition msb_instruments : list str :=
  [$"ALPHA PARTICLE X-RAYSPECTROMETER"; $"JOVIAN AURORAL PLASMA DISTRIBUTIONS EXPERIMENT";
   $"CHEMISTRY AND MINERALOGY INSTRUMENT"; $"MARS ADVANCED RADAR FOR SUBSURFACE ANDIONOSPHERE SOUNDING"].
