(** Specification for C39, C40 and C42 (MGS MOC): how the instrument's software codes images,
    and what bit streams are. *)
From Coq Require Import ZArith.
From Verif.Base Require Export Py.
From Verif.Model Require Import MocTables Moc.
Open Scope nat_scope.

Definition is_byte (b : Z) : Prop := (0 <= b < 256)%Z.
(** ** Bits, the lowest of each byte first *)
Definition byte_bits (b : Z) : list bool := map (fun i => Z.testbit b (Z.of_nat i)) (seq 0 8).
Definition bits_of (data : list Z) : list bool := flat_map byte_bits data.
(** [c] stands at bit [pos] of the data, which are continued with zeros *)
Definition stands (data : list Z) (pos : nat) (c : list bool) : Prop :=
  forall i, i < List.length c -> nth i c false = nth (pos + i) (bits_of data) false.
(** the decoder's state at bit [pos] of the data *)
Definition at_pos (data : list Z) (s : bits) (pos : nat) : Prop :=
  bit_count s < 8 /\ pos = 8 * output s + bit_count s /\ bit_queue s = Z.shiftr (byte_at data (output s)) (Z.of_nat (bit_count s)).

(** ** The code tables of the flight software: table [k] codes residual [v] as the lowest
    [len] bits of a number, lowest first; table 7 is lossy *)
Definition flight_bits : list (list Z) := [code0_bits; code1_bits; code2_bits; code3_bits; code4_bits; code5_bits; code6_bits; code7_bits].
Definition flight_lens : list (list Z) := [code0_len; code1_len; code2_len; code3_len; code4_len; code5_len; code6_len; code7_len].
Definition entry (l : list Z) (v : Z) : Z := nth (Z.to_nat v) l 0%Z.
Definition codeword (k : nat) (v : Z) : list bool :=
  map (fun i => Z.testbit (entry (nth k flight_bits []) v) (Z.of_nat i)) (seq 0 (Z.to_nat (entry (nth k flight_lens []) v))).
(** the residual that stands for [v] *)
Definition means (k : nat) (v : Z) : Z := if k =? 7 then entry code7_requant v else v.
Definition prefix_of {A} (p l : list A) : Prop := exists r, l = p ++ r.

(** ** Prediction *)
Inductive prediction := NoPrediction | FromLeft | FromAbove.
(** [bs] codes pixel [p] predicted as [q] *)
Definition pixel_coded (k : nat) (q p : Z) (bs : list bool) : Prop :=
  exists v, is_byte v /\ p = ((q + means k v) mod 256)%Z /\ bs = codeword k v.
Inductive row_coded (k : nat) (kind : prediction) : Z -> list Z -> list Z -> list bool -> Prop :=
| row_nil left above : row_coded k kind left above [] []
| row_cons left above p row bs bs' :
    pixel_coded k (match kind with NoPrediction => 0%Z | FromLeft => left | FromAbove => hd 0%Z above end) p bs ->
    row_coded k kind p (tl above) row bs' ->
    row_coded k kind left above (p :: row) (bs ++ bs').
(** rows below [above] *)
Inductive rows_coded (k : nat) (kind : prediction) : list Z -> list (list Z) -> list bool -> Prop :=
| rows_nil above : rows_coded k kind above [] []
| rows_cons above row rows bs bs' :
    row_coded k kind 0%Z above row bs -> rows_coded k kind row rows bs' -> rows_coded k kind above (row :: rows) (bs ++ bs').
(** the compressed data of an image: with prediction, each 128 rows begin with the marker
    CA F0 at an even position and a row that is not compressed *)
Inductive image_coded (k : nat) (kind : prediction) : list (list Z) -> list Z -> Prop :=
| coded_raw rows data bs pad : kind = NoPrediction -> rows_coded k kind [] rows bs -> bits_of data = bs ++ pad -> image_coded k kind rows data
| coded_last first more body bs pad : kind <> NoPrediction -> List.length more < 128 -> rows_coded k kind first more bs -> bits_of body = bs ++ pad ->
    image_coded k kind (first :: more) (202%Z :: 240%Z :: first ++ body)
| coded_more first more body bs pad rest data : kind <> NoPrediction -> List.length more = 127 -> rows_coded k kind first more bs -> bits_of body = bs ++ pad ->
    List.length pad < 16 -> Nat.even (List.length body) = true -> image_coded k kind rest data ->
    image_coded k kind (first :: more ++ rest) (202%Z :: 240%Z :: first ++ body ++ data).

(** complete groups of 128 rows *)
Inductive groups_coded (k : nat) (kind : prediction) : list (list Z) -> list Z -> Prop :=
| groups_none : groups_coded k kind [] []
| groups_more first more body bs pad rest data : List.length more = 127 -> rows_coded k kind first more bs -> bits_of body = bs ++ pad ->
    List.length pad < 16 -> Nat.even (List.length body) = true -> groups_coded k kind rest data ->
    groups_coded k kind (first :: more ++ rest) (202%Z :: 240%Z :: first ++ body ++ data).

(** ** Files: a label of 2048 bytes, then for each fragment a header of 62 bytes, the data
    and one more byte *)
Record fragment := mkFrag { head : list Z; content : list Z; check : Z }.
Definition le16 (n : Z) (l : list Z) (i : nat) : Prop := nth_error l i = Some (n mod 256)%Z /\ nth_error l (S i) = Some (n / 256)%Z.
Definition well_formed (f : fragment) : Prop :=
  List.length (head f) = 62 /\ content f <> [] /\ Forall is_byte (head f) /\ Forall is_byte (content f) /\
  (exists lo hi, le16 lo (head f) 58 /\ le16 hi (head f) 60 /\ (Z.of_nat (List.length (content f)) = lo + 65536 * hi)%Z).
(** the method: predictive or none (bits 2 and 3 of byte 44 clear) *)
Definition method (f : fragment) (kind : prediction) : Prop :=
  exists c, nth_error (head f) 44 = Some c /\ (Z.land (Z.shiftr c 2) 3 = 0)%Z /\
    (Z.land c 3 = match kind with NoPrediction => 0 | FromLeft => 1 | FromAbove => 2 end)%Z.
Definition code_table (f : fragment) (k : nat) : Prop := exists c, nth_error (head f) 45 = Some c /\ (c mod 16 = Z.of_nat k)%Z.
Definition is_last (f : fragment) (b : bool) : Prop := exists s, nth_error (head f) 13 = Some s /\ Z.testbit s 1 = b.
(** 16 rows and 16 columns are the units *)
Definition image_size (f : fragment) (height width : nat) : Prop :=
  exists h w, le16 h (head f) 40 /\ nth_error (head f) 43 = Some w /\ (Z.of_nat height = 16 * h)%Z /\ (Z.of_nat width = 16 * w)%Z.
Definition file_of (label : list Z) (frags : list fragment) : list Z :=
  label ++ flat_map (fun f => head f ++ content f ++ [check f]) frags.
(** the code table a header names *)
Definition code_table_id (h : header) : nat := Z.to_nat (Z.land (byte_at (compression h) 1) 15).
(** ** Finding the place again in damaged data *)
Definition marker (data : list Z) (p : nat) : Prop := nth_error data p = Some 202%Z /\ nth_error data (S p) = Some 240%Z.
(** all but the first of the 33 bytes after the marker at [p] are there, and neighbours
    differ by 64 at most *)
Definition smooth (data : list Z) (p : nat) : Prop :=
  forall i, p + 3 <= i < p + 34 -> exists a b, nth_error data i = Some a /\ nth_error data (S i) = Some b /\ (Z.abs (a - b) <= 64)%Z.
