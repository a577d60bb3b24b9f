(** Model of the MGS MOC decompressor for transform-compressed fragments:
    pdr/formats/mgs_moc.py:756-1015 and 1136-1230 (the butterfly of the inverse cosine
    transform itself, 1018-1133, is an arbitrary function here).  Line numbers cite that
    file. *)
From Coq Require Import ZArith QArith.
From Verif.Base Require Import Py Float.
From Verif.Model Require Import MocTables Moc.
Open Scope nat_scope.

(** ** The bit reader (258-266, 872-910) *)
Record reader := mkRd { queue : Z; count : nat; pos : nat }.
Definition new_reader (data : list Z) : reader := mkRd (match data with b :: _ => b | [] => 0%Z end) 0 0.
(** 886-899, the loop: at most three bytes are taken *)
Fixpoint refill (fuel n : nat) (data : list Z) (r : reader) : res reader :=
  if count r <? 24 then
    match fuel with
    | O => Err OutOfFuel
    | S fuel =>
        if pos r =? List.length data then
          if n <=? count r then Ok (mkRd (queue r) (count r) 0) else Err ValueError
        else refill fuel n data (mkRd (Z.lor (queue r) (Z.shiftl (byte_at data (pos r)) (Z.of_nat (count r)))) (count r + 8) (S (pos r)))
    end
  else Ok r.
Definition read_bits (n : nat) (data : list Z) (r : reader) : res (Z * reader) :=
  if 24 <? n then Err ValueError
  else
    do r <- (if count r <? n then refill 4 n data r else Ok r);
    Ok (Z.land (queue r) (Z.shiftr 4294967295 (32 - Z.of_nat n)), mkRd (Z.shiftr (queue r) (Z.of_nat n)) (count r - n) (pos r)).

(** ** Code trees (913-977) *)
Inductive btree := Leaf (value : Z) | Node (zero one : btree).
Definition LARGE_NEGATIVE : Z := 16777216.
Definition LARGE_POSITIVE : Z := 33554432.
(** 866-868: 32 binary digits, reversed *)
Definition bit_reverse (num : Z) : Z :=
  fold_left (fun acc i => (2 * acc + Z.b2z (Z.testbit num (Z.of_nat i)))%Z) (seq 0 32) 0%Z.
(** list.sort: stable, by key *)
Fixpoint insert_by (x : Z * Z) (l : list (Z * Z)) : list (Z * Z) :=
  match l with [] => [x] | y :: l' => if (snd x <=? snd y)%Z then x :: l else y :: insert_by x l' end.
Definition sort_by (l : list (Z * Z)) : list (Z * Z) := fold_right insert_by [] l.
Fixpoint zeros_first (bit : Z) (l : list (Z * Z)) : nat :=
  match l with [] => 0 | (_, c) :: l' => if (Z.land c bit =? 0)%Z then S (zeros_first bit l') else 0 end.
(** 913-938 [make_tree]; a code of more than 32 bits would recur forever *)
Fixpoint make_tree (fuel : nat) (trees : list (Z * Z)) (bit : Z) : res btree :=
  match fuel with
  | O => Err OutOfFuel
  | S fuel =>
      match trees with
      | [(v, _)] => Ok (Leaf v)
      | _ =>
          let n := zeros_first bit trees in
          do z <- make_tree fuel (firstn n trees) (Z.shiftl bit 1);
          do o <- make_tree fuel (skipn n trees) (Z.shiftl bit 1);
          Ok (Node z o)
      end
  end.
Definition coef_codes (which : nat) : list Z := nth which [code0; code1; code2; code3; code4; code5; code6; code7] [].
Definition coef_size (which : nat) : nat := Z.to_nat (nth which sizes 0%Z).
(** 953-976, one tree *)
Definition leaf_value (size n : nat) : Z :=
  if n =? 0 then LARGE_NEGATIVE else if n =? size - 1 then LARGE_POSITIVE else (Z.of_nat n - Z.of_nat size / 2)%Z.
Definition encode_tree (which : nat) : res btree :=
  let size := coef_size which in
  let trees := map (fun n => (leaf_value size n, bit_reverse (nth n (coef_codes which) 0%Z))) (seq 0 size) in
  make_tree 34 (map (fun t => (fst t, bit_reverse (snd t))) (sort_by trees)) 1.
(** 941-977 [init_block] *)
Definition encode_trees : res (list btree) := rmap encode_tree (seq 0 8).

(** ** Coefficients (980-1005) *)
Fixpoint descend (t : btree) (data : list Z) (r : reader) : res (Z * reader) :=
  match t with
  | Leaf v => Ok (v, r)
  | Node z o => do b <- read_bits 1 data r; if (fst b =? 0)%Z then descend z data (snd b) else descend o data (snd b)
  end.
Definition read_coef (t : btree) (data : list Z) (r : reader) : res (Z * reader) :=
  do v <- descend t data r;
  if (fst v =? LARGE_NEGATIVE)%Z then
    do c <- read_bits 15 data (snd v);
    let c' := Z.lor (fst c) 32768 in
    Ok (if (Z.land c' 32768 =? 0)%Z then c' else (c' - 65536)%Z, snd c)
  else if (fst v =? LARGE_POSITIVE)%Z then
    do c <- read_bits 15 data (snd v); Ok (Z.land (fst c) 32767, snd c)
  else Ok v.

(** an int32 *)
Definition int32 (z : Z) : Z := ((z + 2147483648) mod 4294967296 - 2147483648)%Z.
(** int(dc * range_dc / 255.0 + min_dc): the two float operations round *)
Definition dc_value (dc min_dc max_dc : Z) : Z :=
  let q := (round64 (round64 (inject_Z (dc * (max_dc - min_dc)) / 255) + inject_Z min_dc))%Q in
  Z.quot (Qnum q) (Zpos (Qden q)).

(** ** Blocks (1173-1230) *)
Section Transform.
  (** the inverse transform of 16 x 16 coefficients, rounded (1136-1166 without the limits
      0 and 255) *)
  Variable inverse : list Z -> nat -> Z.
  Fixpoint read_coefs (n i : nat) (spacing : Z) (var : list Z) (trees : list btree) (data : list Z) (r : reader)
      : res (list Z * reader) :=
    match n with
    | O => Ok ([], r)
    | S n =>
        match nth_error trees (Z.to_nat (nth i var 0%Z)) with
        | None => Err IndexError
        | Some t =>
            do c <- read_coef t data r;
            do l <- read_coefs n (S i) spacing var trees data (snd c);
            Ok (int32 (fst c * spacing) :: fst l, snd l)
        end
    end.
  (** 1008-1015 *)
  Definition reorder (block : list Z) : list Z := map (fun t => nth (Z.to_nat t) block 0%Z) trans.
  (** the pixels of a block *)
  Definition read_block (transform spacing min_dc max_dc : Z) (var : list Z) (trees : list btree) (data : list Z) (r : reader)
      : res ((nat -> nat -> Z) * reader) :=
    do dc <- read_bits 8 data r;
    do num_zeros <- read_bits 8 data (snd dc);
    do coefs <- read_coefs (255 - Z.to_nat (fst num_zeros)) 1 spacing var trees data (snd num_zeros);
    let block := dc_value (fst dc) min_dc max_dc :: fst coefs ++ repeat 0%Z (255 - List.length (fst coefs)) in
    if (transform =? 1)%Z then
      let values := inverse (reorder block) in
      Ok (fun y0 x0 => Z.max 0 (Z.min 255 (values (y0 * 16 + x0))), snd coefs)
    else Err ValueError.

  (** ** Fragments (795-863) *)
  (** pixel by row and column *)
  Definition canvas := nat -> nat -> Z.
  Definition paint (img : canvas) (x y : nat) (block : nat -> nat -> Z) : canvas :=
    fun r c => if (y <=? r) && (r <? y + 16) && (x <=? c) && (c <? x + 16) then block (r - y) (c - x) else img r c.
  Fixpoint read_many (n count : nat) (data : list Z) (r : reader) : res (list Z * reader) :=
    match n with
    | O => Ok ([], r)
    | S n => do v <- read_bits count data r; do l <- read_many n count data (snd v); Ok (fst v :: fst l, snd l)
    end.
  (** 837-853: the blocks of one level, from [block_idx] on; the image as far as it was
      painted, and the reader or the error *)
  Fixpoint read_level (blocks : list (nat * nat)) (groups : list Z) (level transform spacing min_dc max_dc : Z) (var : list Z)
      (trees : list btree) (data : list Z) (r : reader) (img : canvas) : canvas * res reader :=
    match blocks, groups with
    | (x, y) :: blocks, g :: groups =>
        if (g =? level)%Z then
          match read_block transform spacing min_dc max_dc var trees data r with
          | Err e => (img, Err e)
          | Ok (b, r) => read_level blocks groups level transform spacing min_dc max_dc var trees data r (paint img x y b)
          end
        else read_level blocks groups level transform spacing min_dc max_dc var trees data r img
    | _, _ => (img, Ok r)
    end.
  Definition level_header (data : list Z) (r : reader) : res (Z * Z * list Z * reader) :=
    do lo <- read_bits 16 data r;
    do hi <- read_bits 16 data (snd lo);
    do var <- read_many 255 3 data (snd hi);
    Ok (fst lo, fst hi, 0%Z :: fst var, snd var).
  Fixpoint read_levels (n : nat) (level : Z) (blocks : list (nat * nat)) (groups : list Z) (transform spacing : Z)
      (trees : list btree) (data : list Z) (r : reader) (img : canvas) : canvas :=
    match n with
    | O => img
    | S n =>
        if existsb (Z.eqb level) groups then
          match level_header data r with
          | Err _ => img
          | Ok (lo, hi, var, r) =>
              match read_level blocks groups level transform spacing lo hi var trees data r img with
              | (img, Err _) => img
              | (img, Ok r) => read_levels n (level + 1) blocks groups transform spacing trees data r img
              end
          end
        else read_levels n (level + 1) blocks groups transform spacing trees data r img
    end.
  (** the corners of the blocks, in order *)
  Definition block_corners (width height : nat) : list (nat * nat) :=
    flat_map (fun x => map (fun y => (16 * x, 16 * y)) (seq 0 (height / 16))) (seq 0 (width / 16)).
  Definition rows_of (width height : nat) (img : canvas) : list (list Z) :=
    map (fun r => map (fun c => img r c) (seq 0 width)) (seq 0 height).
  Definition decompress (data : list Z) (width height : nat) (transform spacing : Z) (num_levels : nat) : res (list (list Z)) :=
    do trees <- encode_trees;
    do groups <- read_many (width * height / 256) 3 data (new_reader data);
    if forallb (fun g => (g <? Z.of_nat num_levels)%Z) (fst groups) then
      Ok (rows_of width height (read_levels num_levels 0 (block_corners width height) (fst groups) transform spacing trees data (snd groups) (fun _ _ => 0%Z)))
    else Ok (rows_of width height (fun _ _ => 0%Z)).
  (** 756-778 *)
  Definition decompress_transform_image (h : header) (indat : list Z) : res (list (list Z)) :=
    let c i := byte_at (compression h) i in
    decompress indat (edit_length h * 16) (down_length h * 16)
      (Z.land (Z.shiftr (c 0) 2) 3 - 1) (Z.lor (c 4) (Z.shiftl (c 5) 8)) (Z.to_nat (Z.shiftr (c 1) 5 + 1)).
End Transform.
