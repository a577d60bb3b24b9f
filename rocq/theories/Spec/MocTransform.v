(** Specification for C42 (MGS MOC part) and C60: numbers in bit streams, and how the
    instrument's software codes a fragment of a transform-compressed image. *)
From Coq Require Import ZArith.
From Verif.Base Require Export Py.
From Verif.Model Require Import MocTables.
From Verif.Spec Require Import Moc.
Open Scope nat_scope.

(** ** Numbers as bits, the lowest first *)
Definition low_bits (n : nat) (v : Z) : list bool := map (fun i => Z.testbit v (Z.of_nat i)) (seq 0 n).
Definition number (bs : list bool) : Z := fold_right (fun b v => (Z.b2z b + 2 * v)%Z) 0%Z bs.
(** [bs] cut into groups of the given sizes *)
Fixpoint cut (sizes : list nat) (bs : list bool) : list (list bool) :=
  match sizes with [] => [] | n :: sizes => firstn n bs :: cut sizes (skipn n bs) end.

(** ** Coefficients: eight code tables.  The first code word of a table announces a negative
    number of 16 bits, the last one a positive number; the others are the small numbers. *)
Definition words : list (list Z * list Z) :=
  [(num0, code0); (num1, code1); (num2, code2); (num3, code3); (num4, code4); (num5, code5); (num6, code6); (num7, code7)].
Definition table_size (which : nat) : nat := List.length (fst (nth which words ([], []))).
Definition coef_word (which n : nat) : list bool :=
  low_bits (Z.to_nat (nth n (fst (nth which words ([], []))) 0%Z)) (nth n (snd (nth which words ([], []))) 0%Z).
Inductive coef_coded (which : nat) : Z -> list bool -> Prop :=
| coded_small n : 1 <= n < table_size which - 1 -> coef_coded which (Z.of_nat n - Z.of_nat (table_size which / 2)) (coef_word which n)
| coded_negative c : (-32768 <= c < 0)%Z -> coef_coded which c (coef_word which 0 ++ low_bits 15 (c + 32768))
| coded_positive c : (0 <= c < 32768)%Z -> coef_coded which c (coef_word which (table_size which - 1) ++ low_bits 15 c).

(** ** Blocks of 16 x 16 pixels: a mean, coded between the extremes of its group, and some
    of the 255 other coefficients; the rest are 0 *)
Record tblock := mkBlock { group : nat; dc : Z; coefs : list Z }.
(** a group of blocks: the extremes of the means, and the table for each coefficient *)
Record level := mkLevel { lowest : Z; highest : Z; table_of : list nat }.
Inductive coefs_coded : list nat -> list Z -> list bool -> Prop :=
| coefs_nil tables : coefs_coded tables [] []
| coefs_cons which tables c cs bs bs' : coef_coded which c bs -> coefs_coded tables cs bs' -> coefs_coded (which :: tables) (c :: cs) (bs ++ bs').
Inductive blocks_coded (l : level) : list tblock -> list bool -> Prop :=
| blocks_nil : blocks_coded l [] []
| blocks_cons b blocks bs bs' : (0 <= dc b < 256)%Z -> coefs_coded (table_of l) (coefs b) bs -> blocks_coded l blocks bs' ->
    blocks_coded l (b :: blocks) (low_bits 8 (dc b) ++ low_bits 8 (255 - Z.of_nat (List.length (coefs b))) ++ bs ++ bs').
Definition well_made (l : level) : Prop :=
  (0 <= lowest l <= highest l)%Z /\ (highest l < 65536)%Z /\ List.length (table_of l) = 255 /\ Forall (fun t => t < 8) (table_of l).
(** the groups from number [k] on; groups without blocks take no space *)
Inductive levels_coded (blocks : list tblock) : nat -> list level -> list bool -> Prop :=
| levels_nil k : levels_coded blocks k [] []
| levels_absent k l levels bs : (forall b, In b blocks -> group b <> k) -> levels_coded blocks (S k) levels bs -> levels_coded blocks k (l :: levels) bs
| levels_cons k l levels bs bs' : (exists b, In b blocks /\ group b = k) -> well_made l -> blocks_coded l (filter (fun b => group b =? k) blocks) bs ->
    levels_coded blocks (S k) levels bs' ->
    levels_coded blocks k (l :: levels)
      (low_bits 16 (lowest l) ++ low_bits 16 (highest l) ++ flat_map (fun t => low_bits 3 (Z.of_nat t)) (table_of l) ++ bs ++ bs').
Definition fragment_coded (levels : list level) (blocks : list tblock) (bs : list bool) : Prop :=
  List.length levels <= 8 /\ Forall (fun b => group b < List.length levels) blocks /\
  exists rest, levels_coded blocks 0 levels rest /\ bs = flat_map (fun b => low_bits 3 (Z.of_nat (group b))) blocks ++ rest.

(** ** The picture.  The coefficients of a block in the order of the transform: [trans] tells
    where each one is in the block's list *)
Definition mean (l : level) (b : tblock) : Z := (lowest l + dc b * (highest l - lowest l) / 255)%Z.
Definition coefficient (l : level) (spacing : Z) (b : tblock) (t : Z) : Z :=
  if (t =? 0)%Z then mean l b else (nth (Z.to_nat t - 1) (coefs b) 0 * spacing)%Z.
Definition coefficients (l : level) (spacing : Z) (b : tblock) : list Z := map (coefficient l spacing b) trans.
Definition limit (v : Z) : Z := Z.max 0 (Z.min 255 v).
(** the blocks go down the first 16 columns, then down the next ones *)
Definition block_at (blocks_down r c : nat) : nat := c / 16 * blocks_down + r / 16.
Definition pixel (inverse : list Z -> nat -> Z) (levels : list level) (blocks : list tblock) (spacing : Z) (blocks_down r c : nat) : Z :=
  let b := nth (block_at blocks_down r c) blocks (mkBlock 0 0 []) in
  let l := nth (group b) levels (mkLevel 0 0 []) in
  limit (inverse (coefficients l spacing b) (16 * (r mod 16) + c mod 16)).
Definition picture_of (inverse : list Z -> nat -> Z) (levels : list level) (blocks : list tblock) (spacing : Z) (blocks_across blocks_down : nat) : list (list Z) :=
  map (fun r => map (fun c => pixel inverse levels blocks spacing blocks_down r c) (seq 0 (16 * blocks_across))) (seq 0 (16 * blocks_down)).

(** ** Fragments and files.  A fragment with its meaning: *)
Record tfragment := mkTF { in_file : fragment; levels_of : list level; blocks_of : list tblock; spacing_of : Z; down : nat }.
(** the header names the cosine transform (2 in bits 2 and 3 of byte 44), the number of
    groups, the spacing of coefficients and the size in blocks; the content is the code *)
Definition transform_coded (across : nat) (t : tfragment) : Prop :=
  let h := head (in_file t) in
  well_formed (in_file t) /\
  (exists c, nth_error h 44 = Some c /\ (Z.land (Z.shiftr c 2) 3 = 2)%Z /\ (Z.land c 3 <> 1)%Z) /\
  (exists c, nth_error h 45 = Some c /\ (c / 32 + 1 = Z.of_nat (List.length (levels_of t)))%Z) /\
  le16 (spacing_of t) h 48 /\
  le16 (Z.of_nat (down t)) h 6 /\ nth_error h 43 = Some (Z.of_nat across) /\
  List.length (blocks_of t) = across * down t /\
  exists stream pad, fragment_coded (levels_of t) (blocks_of t) stream /\ bits_of (content (in_file t)) = stream ++ pad.
