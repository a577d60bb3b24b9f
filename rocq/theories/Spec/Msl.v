(** Specification for C41 and C42 (MSL part): how the cameras of the MSL rover write their
    files. *)
From Coq Require Import ZArith.
From Verif.Base Require Export Py.
From Verif.Model Require Import Msl.
Open Scope nat_scope.

Definition is_byte (b : Z) : Prop := (0 <= b < 256)%Z.
(** ** Bits, the highest of each byte first *)
Definition byte_bits (b : Z) : list bool := map (fun i => Z.testbit b (7 - Z.of_nat i)) (seq 0 8).
Definition stream (data : list Z) : list bool := flat_map byte_bits data.

(** ** The code for differences: [flags], [left_] and [right_] of a node tell where the bits
    0 and 1 lead; bit 0 of the flags is set if the left entry is another node, bit 1 if the
    right one is.  [codes node c v]: from [node], the bits [c] lead to the value [v]. *)
Definition entry (l : list Z) (n : nat) : Z := nth n l 0%Z.
Inductive codes : nat -> list bool -> Z -> Prop :=
| left_value n : Z.testbit (entry flags n) 0 = false -> codes n [false] (entry left_ n)
| left_node n c v : Z.testbit (entry flags n) 0 = true -> codes (Z.to_nat (entry left_ n)) c v -> codes n (false :: c) v
| right_value n : Z.testbit (entry flags n) 1 = false -> codes n [true] (entry right_ n)
| right_node n c v : Z.testbit (entry flags n) 1 = true -> codes (Z.to_nat (entry right_ n)) c v -> codes n (true :: c) v.
Definition codeword (c : list bool) (v : Z) : Prop := codes 0 c v.

(** ** Planes: the differences between neighbours, from 0 *)
Inductive plane_coded : Z -> list Z -> list bool -> Prop :=
| plane_nil prev : plane_coded prev [] []
| plane_cons prev v vs c bs : is_byte v -> codeword c ((v - prev) mod 256)%Z -> plane_coded v vs bs -> plane_coded prev (v :: vs) (c ++ bs).
Definition marker : list Z := [255; 255; 0; 0]%Z.
(** no marker begins before the end of [gap], when one follows it *)
Definition clear (gap : list Z) : Prop := forall q, q < List.length gap -> firstn 4 (skipn q (gap ++ marker)) <> marker.
(** a plane in the file: perhaps something else first, then the marker and the code, filled
    up to a multiple of four bytes *)
Definition section_of (vs data : list Z) : Prop :=
  exists gap body bs pad, data = gap ++ marker ++ body /\ List.length gap mod 4 = 0 /\ clear gap /\
    plane_coded 0 vs bs /\ stream body = bs ++ pad /\ List.length pad < 32 /\ List.length body mod 4 = 0.
(** ** Images: [pixel row column]; eight rows of [width] pixels make four planes *)
Definition plane (pixel : nat -> nat -> Z) (width g down right : nat) : list Z :=
  flat_map (fun y => map (fun x => pixel (8 * g + 2 * y + down) (2 * x + right)) (seq 0 (width / 2))) (seq 0 4).
Inductive sections_of : list (list Z) -> list Z -> Prop :=
| sections_nil : sections_of [] []
| sections_cons vs planes data data' : section_of vs data -> sections_of planes data' -> sections_of (vs :: planes) (data ++ data').
(** the planes of [n] groups from group [g] on *)
Definition planes (pixel : nat -> nat -> Z) (width g n : nat) : list (list Z) :=
  flat_map (fun g => [plane pixel width g 0 0; plane pixel width g 0 1; plane pixel width g 1 0; plane pixel width g 1 1]) (seq g n).

(** ** Headers: 64 bytes, the last of which are fixed *)
Definition header_at (file : list Z) (o : nat) (h : list Z) : Prop :=
  firstn 64 (skipn o file) = h /\ List.length h = 64 /\ skipn 60 h = [16; 16; 204; 40]%Z.
(** the header of a file: the first one, at one of the first 1000 places *)
Definition header_is (file : list Z) (o : nat) (h : list Z) : Prop :=
  o < 1000 /\ header_at file o h /\ forall o' h', o' < o -> ~ header_at file o' h'.
(** [n] eights, except that 0 stands for a default *)
Definition dimension (n : Z) (default size : nat) : Prop := (n = 0%Z /\ size = default) \/ (n <> 0%Z /\ Z.of_nat size = (8 * n)%Z).
Definition image_size (h : list Z) (height width : nat) : Prop :=
  exists a b, nth_error h 23 = Some a /\ nth_error h 22 = Some b /\ dimension a 1200 height /\ dimension b 1648 width.
(** bytes 34 and 35 tell how the pixels are coded, bytes 36 to 39 whether they have 16 bits *)
Definition coded_as (h : list Z) (t : filetype) : Prop :=
  exists a b, nth_error h 35 = Some a /\ nth_error h 34 = Some b /\
    match t with RAW => a = 0%Z /\ b = 0%Z | PRED => a = 0%Z /\ b <> 0%Z | JPEG => a <> 0%Z end.
Definition sixteen_bits (h : list Z) : Prop := firstn 4 (skipn 36 h) = [0; 0; 0; 255]%Z.
(** bit 3 of the first byte *)
Definition is_thumbnail (h : list Z) : Prop := exists a, nth_error h 0 = Some a /\ Z.testbit a 3 = true.
(** ** Reading: the results of [n] calls to [next_bit], and the reader after them *)
Fixpoint bits_read (n : nat) (file : list Z) (s : input) : list (option Z) :=
  match n with O => [] | S n => fst (next_bit file s) :: bits_read n file (snd (next_bit file s)) end.
Fixpoint after_bits (n : nat) (file : list Z) (s : input) : input :=
  match n with O => s | S n => after_bits n file (snd (next_bit file s)) end.
(** bytes per pixel, and pixel number [k] of an image that is not compressed: it begins at
    byte 64, the high byte first; bytes that are missing are 0 *)
Definition pixel_size (h : list Z) (n : nat) : Prop := (sixteen_bits h /\ n = 2) \/ (~ sixteen_bits h /\ n = 1).
Definition sample (n : nat) (file : list Z) (k : nat) : Z :=
  if n =? 2 then (256 * nth (64 + 2 * k) file 0 + nth (64 + 2 * k + 1) file 0)%Z else nth (64 + k) file 0%Z.
(** thumbnails may have up to seven rows and columns more than the header tells; [i] before
    [j] in the order of rows, then columns *)
Definition before (i j : nat * nat) : Prop := fst i < fst j \/ (fst i = fst j /\ snd i < snd j).
Definition near (height width : nat) (i : nat * nat) : Prop := height <= fst i < height + 8 /\ width <= snd i < width + 8.
(** the data after the header have the length of such an image and 32 or 56 more bytes *)
Definition thumbnail_fits (file : list Z) (n : nat) (i : nat * nat) : Prop :=
  List.length file = 64 + fst i * snd i * n + 32 \/ List.length file = 64 + fst i * snd i * n + 56.
(** the first place of the two bytes that begin a JPEG image: [jpeg] is what is left there *)
Definition SOI : list Z := [255; 216]%Z.
Definition begins_at (data skipped jpeg : list Z) : Prop :=
  data = skipped ++ jpeg /\ firstn 2 jpeg = SOI /\ forall q, q < List.length skipped -> firstn 2 (skipn q data) <> SOI.
