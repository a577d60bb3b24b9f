(** Model of the decompressor for the camera files of the MSL rover:
    pdr/formats/msl_edr.py:125-626.  Line numbers cite that file.
    A file is the list of its bytes, as integers. *)
From Coq Require Import ZArith.
From Verif.Base Require Import Py Numpy.
Open Scope nat_scope.

(** ** The header (125-204) *)
Definition HEADER_MAGIC1 : Z := 269536296. (* 16, 0x1010cc28 *)
Definition byte_at (l : list Z) (i : nat) : Z := nth i l 0%Z.
(** struct.unpack(">16I", header)[i] *)
Definition word (h : list Z) (i : nat) : Z :=
  (((byte_at h (4 * i) * 256 + byte_at h (4 * i + 1)) * 256 + byte_at h (4 * i + 2)) * 256 + byte_at h (4 * i + 3))%Z.
(** 143-161 [read_header]; [n] offsets remain to be tried *)
Fixpoint read_header_from (file : list Z) (offset n : nat) : option (list Z) :=
  match n with
  | O => None
  | S n =>
      let h := firstn 64 (skipn offset file) in
      if List.length h <? 64 then None
      else if (word h 15 =? HEADER_MAGIC1)%Z then Some h
      else read_header_from file (S offset) n
  end.
Definition read_header (file : list Z) : option (list Z) := read_header_from file 0 1000.
Inductive filetype := RAW | PRED | JPEG.
(** 125-140; the offsets and bits_per_element are not used *)
Record hdr := mkHdr { width : nat; height : nat; depth : nat; bands : nat; thumbnail : bool; image_type : filetype }.
Definition size_or (n : Z) (default : nat) : nat := if (n =? 0)%Z then default else Z.to_nat (n * 8).
(** 164-204 [decode_dat_header]; the numbers read are not negative *)
Definition decode_header (h : list Z) : hdr :=
  let w5 := word h 5 in let w8 := word h 8 in
  let t := if (Z.land w8 255 =? 0)%Z then if (Z.land w8 65280 =? 0)%Z then RAW else PRED else JPEG in
  mkHdr (size_or (Z.land (Z.shiftr w5 8) 255) 1648) (size_or (Z.land w5 255) 1200)
    (match t with JPEG => 1 | _ => if (word h 9 =? 255)%Z then 2 else 1 end)
    (match t with JPEG => if (Z.land w8 65280 =? 0)%Z then 1 else 3 | _ => 1 end)
    (negb (Z.land (Z.shiftr (word h 0) 24) 8 =? 0)%Z) t.

(** ** Arrays from buffers: np.frombuffer with one byte or two (little endian) per item *)
Fixpoint pairs (l : list Z) : list Z := match l with a :: b :: l => (a + 256 * b)%Z :: pairs l | _ => [] end.
Definition frombuffer (depth : nat) (buffer : list Z) : res (arr Z) :=
  if depth =? 2 then
    if Nat.even (List.length buffer) then Ok (mkArr [List.length buffer / 2] (fun idx => nth (hd 0 idx) (pairs buffer) 0%Z)) else Err ValueError
  else Ok (mkArr [List.length buffer] (fun idx => nth (hd 0 idx) buffer 0%Z)).

(** ** Images that are not compressed (207-263) *)
(** 221-225; a last byte without partner stays *)
Fixpoint swap_pairs (l : list Z) : list Z := match l with a :: b :: l => b :: a :: swap_pairs l | _ => l end.
(** 236-246: the first of the 64 sizes that fits *)
Definition fits (bytes_read depth : nat) (size : nat * nat) : bool :=
  let check_size := fst size * snd size * depth in
  ((Z.of_nat check_size =? Z.of_nat bytes_read - 32) || (Z.of_nat check_size =? Z.of_nat bytes_read - 56))%Z%bool.
Definition sizes (h w : nat) : list (nat * nat) := flat_map (fun h' => map (fun w' => (h', w')) (seq w 8)) (seq h 8).
Definition read_raw_image (file : list Z) (d : hdr) (max_image_bytes : nat) : res (arr Z) :=
  let image_bytes := width d * height d * depth d in
  let raw := firstn max_image_bytes (skipn 64 file) in
  let bytes_read := List.length raw in
  let outbuf := if depth d =? 2 then swap_pairs raw else raw in
  let '(h, w, image_bytes) :=
    if negb (bytes_read =? image_bytes) && thumbnail d then
      match find (fits bytes_read (depth d)) (sizes (height d) (width d)) with
      | Some (h, w) => (h, w, h * w * depth d)
      | None => (150, 206, 150 * 206)
      end
    else (height d, width d, image_bytes) in
  let outbuf := outbuf ++ repeat 0%Z (image_bytes - bytes_read) in
  let outbuf := firstn image_bytes outbuf in
  do a <- frombuffer (depth d) outbuf;
  reshape [h; w; bands d] a.

(** ** JPEG images (266-315): Pillow is a parameter; the search for more images at the end
    has no effect *)
Record picture := mkPic { getbands : nat; rgb : arr Z; gray : arr Z }.
(** bytes.find *)
Fixpoint find_soi (l : list Z) : option (list Z) :=
  match l with
  | a :: ((b :: _) as l') => if (a =? 255)%Z && (b =? 216)%Z then Some l else find_soi l'
  | _ => None
  end.
Definition newaxis (a : arr Z) : arr Z := mkArr (shape a ++ [1]) (fun idx => at_ a (removelast idx)).
Definition read_jpeg_image (pillow : list Z -> res picture) (file : list Z) : res (arr Z) :=
  match find_soi (skipn 64 file) with
  | None => Err ValueError
  | Some bytes =>
      do img <- pillow bytes;
      Ok (if getbands img =? 3 then rgb img else if getbands img =? 1 then newaxis (gray img) else gray img)
  end.

(** ** Bits (329-369): [pos] is the position of the file descriptor *)
Record input := mkIn { p : nat; bit : nat; byte_ : Z; pos : nat }.
Definition refill (file : list Z) (p bit pos : nat) : input :=
  match nth_error file pos with Some b => mkIn p bit b (S pos) | None => mkIn p bit 0 pos end.
Definition open_bits (file : list Z) : input := refill file 0 0 0.
(** 343-356 [next_bit]; -1 is None *)
Definition next_bit (file : list Z) (s : input) : option Z * input :=
  if List.length file <=? p s then (None, s)
  else
    let cbit := Z.land (Z.shiftr (byte_ s) (7 - Z.of_nat (bit s))) 1 in
    (Some cbit, if S (bit s) =? 8 then refill file (S (p s)) 0 (pos s) else mkIn (p s) (S (bit s)) (byte_ s) (pos s)).
(** 359-369 [rewind_bytes] *)
Definition rewind_bytes (file : list Z) (s : input) (n : nat) : input := refill file (p s - n) 0 (p s - n).

(** ** Values (372-452): the three parts of the array [tree] *)
Definition flags : list Z := [
  3; 3; 3; 1; 3; 1; 1; 3; 2; 2; 0; 1; 1; 3; 1; 0; 2; 1; 1; 0; 2; 2; 0; 0; 3;
  3; 0; 3; 1; 1; 3; 2; 2; 0; 1; 1; 3; 0; 1; 2; 2; 0; 2; 2; 0; 0; 3; 3; 3; 1;
  1; 1; 3; 2; 2; 0; 3; 3; 3; 2; 3; 3; 0; 0; 3; 0; 0; 3; 3; 3; 0; 0; 3; 0; 0;
  3; 3; 0; 0; 3; 0; 0; 3; 3; 3; 3; 0; 0; 3; 0; 0; 3; 3; 0; 0; 3; 0; 0; 3; 3;
  3; 0; 0; 3; 0; 0; 3; 3; 0; 0; 3; 0; 0; 3; 3; 3; 3; 3; 0; 0; 3; 0; 0; 3; 3;
  0; 0; 3; 0; 0; 3; 3; 3; 0; 0; 3; 0; 0; 3; 3; 0; 0; 3; 0; 0; 3; 3; 3; 3; 0;
  0; 3; 0; 0; 3; 3; 0; 0; 3; 0; 0; 3; 3; 3; 0; 0; 3; 0; 0; 3; 3; 0; 0; 3; 0;
  0; 2; 2; 2; 1; 1; 3; 3; 3; 3; 3; 0; 0; 3; 0; 0; 3; 3; 0; 0; 3; 0; 0; 3; 3;
  3; 0; 0; 3; 0; 0; 3; 3; 0; 0; 3; 0; 0; 3; 3; 3; 3; 0; 0; 3; 0; 0; 3; 3; 0;
  0; 1; 0; 3; 0; 1; 0; 0; 3; 3; 1; 1; 3; 2; 2; 0; 1; 1; 3; 0; 3; 0; 3; 2; 0;
  0; 2; 2; 0; 0]%Z.
Definition left_ : list Z := [
  1; 2; 3; 4; 5; 6; 7; 8; 237; 23; 27; 12; 13; 14; 15; 221; 31; 18; 19; 42; 8; 244; 240; 255; 25;
  26; 251; 28; 29; 30; 31; 20; 24; 28; 35; 36; 37; 32; 39; 36; 40; 170; 9; 243; 239; 2; 47; 48; 49; 50;
  51; 52; 53; 21; 231; 29; 57; 58; 59; 33; 61; 62; 168; 165; 65; 161; 159; 68; 69; 70; 171; 155; 73; 157; 151;
  76; 77; 149; 147; 80; 145; 143; 83; 84; 85; 86; 156; 139; 89; 137; 135; 92; 93; 141; 131; 96; 129; 195; 99; 100;
  101; 125; 197; 104; 121; 119; 107; 108; 117; 200; 111; 113; 111; 114; 115; 116; 117; 118; 109; 134; 121; 105; 103; 124; 125;
  188; 181; 128; 173; 133; 131; 132; 133; 93; 91; 136; 89; 87; 139; 140; 85; 83; 143; 81; 79; 146; 147; 148; 149; 77;
  75; 152; 73; 71; 155; 156; 69; 67; 159; 65; 63; 162; 163; 164; 61; 59; 167; 57; 55; 170; 171; 53; 51; 174; 49;
  47; 6; 10; 242; 180; 181; 182; 183; 184; 185; 186; 45; 107; 189; 175; 177; 192; 193; 183; 185; 196; 190; 192; 199; 200;
  201; 202; 204; 204; 206; 208; 207; 208; 210; 212; 211; 179; 97; 214; 215; 216; 217; 187; 99; 220; 193; 100; 223; 224; 115;
  122; 227; 127; 229; 37; 231; 215; 253; 234; 235; 236; 237; 238; 18; 22; 26; 242; 243; 244; 30; 246; 222; 248; 38; 43;
  217; 7; 11; 241; 4]%Z.
Definition right_ : list Z := [
  46; 24; 23; 0; 20; 248; 12; 11; 9; 10; 229; 236; 232; 16; 225; 35; 17; 220; 216; 169; 21; 22; 16; 1; 45;
  27; 5; 42; 247; 13; 34; 32; 33; 228; 235; 25; 38; 224; 223; 40; 41; 166; 43; 44; 17; 254; 233; 232; 176; 250;
  246; 14; 56; 54; 55; 227; 113; 82; 67; 60; 64; 63; 167; 162; 66; 160; 158; 75; 72; 71; 164; 163; 74; 152; 150;
  79; 78; 148; 146; 81; 144; 142; 98; 91; 88; 87; 154; 138; 90; 136; 153; 95; 94; 132; 130; 97; 194; 196; 106; 103;
  102; 124; 198; 105; 120; 118; 110; 109; 199; 114; 112; 112; 110; 145; 130; 123; 120; 119; 140; 106; 122; 104; 102; 127; 126;
  180; 172; 129; 174; 108; 138; 135; 134; 92; 90; 137; 88; 86; 142; 141; 84; 82; 144; 80; 78; 161; 154; 151; 150; 76;
  74; 153; 72; 70; 158; 157; 68; 66; 160; 64; 62; 169; 166; 165; 60; 58; 168; 56; 54; 173; 172; 52; 50; 175; 48;
  46; 177; 178; 179; 238; 234; 213; 198; 191; 188; 187; 44; 95; 190; 176; 178; 195; 194; 184; 186; 197; 191; 201; 206; 203;
  202; 203; 205; 205; 207; 209; 210; 209; 211; 94; 212; 182; 96; 228; 222; 219; 218; 189; 98; 221; 101; 116; 226; 225; 123;
  126; 41; 128; 230; 219; 218; 214; 3; 254; 251; 249; 245; 241; 239; 240; 230; 19; 233; 245; 226; 247; 34; 250; 249; 213;
  39; 252; 253; 15; 252]%Z.
(** 435-452 [next_value] *)
Fixpoint next_value_from (fuel : nat) (file : list Z) (s : input) (node : nat) : res (option Z * input) :=
  match fuel with
  | O => Err OutOfFuel
  | S fuel =>
      match next_bit file s with
      | (None, s) => Ok (None, s)
      | (Some b, s) =>
          if (b =? 0)%Z then
            if (Z.land (byte_at flags node) 1 =? 0)%Z then Ok (Some (byte_at left_ node), s)
            else next_value_from fuel file s (Z.to_nat (byte_at left_ node))
          else
            if (Z.land (byte_at flags node) 2 =? 0)%Z then Ok (Some (byte_at right_ node), s)
            else next_value_from fuel file s (Z.to_nat (byte_at right_ node))
      end
  end.
Definition next_value (fuel : nat) (file : list Z) (s : input) : res (option Z * input) := next_value_from fuel file s 0.

(** ** Planes (455-501) *)
Definition PREDSYNC : Z := 4294901760. (* 32, 0xffff0000 *)
(** 461-467: [n] bits remain *)
Fixpoint sync_bits (n : nat) (sync : Z) (file : list Z) (s : input) : option Z * input :=
  match n with
  | O => (Some sync, s)
  | S n =>
      match next_bit file s with
      | (None, s) => (None, s)
      | (Some b, s) => sync_bits n (Z.lor sync (Z.shiftl b (Z.of_nat n))) file s
      end
  end.
(** 455-478 [find_sync] *)
Fixpoint find_sync (fuel : nat) (file : list Z) (s : input) : res (bool * input) :=
  match fuel with
  | O => Err OutOfFuel
  | S fuel =>
      match sync_bits 32 0 file s with
      | (None, s) => Ok (false, s)
      | (Some sync, s) => if (sync =? PREDSYNC)%Z then Ok (true, s) else find_sync fuel file (rewind_bytes file s 3)
      end
  end.
(** 490-497: the values, from left to right *)
Fixpoint decode_values (fuel : nat) (n : nat) (prev : Z) (file : list Z) (s : input) : res (list Z * input) :=
  match n with
  | O => Ok ([], s)
  | S n =>
      do v <- next_value fuel file s;
      match v with
      | (None, _) => Err OSError
      | (Some val, s) =>
          let prev := Z.land (prev + Z.land val 255) 255 in
          do r <- decode_values fuel n prev file s;
          Ok (prev :: fst r, snd r)
      end
  end.
(** 498-499 and 500-501 *)
Fixpoint skip_while (cond : input -> bool) (fuel : nat) (file : list Z) (s : input) : res input :=
  if cond s then match fuel with O => Err OutOfFuel | S fuel => skip_while cond fuel file (snd (next_bit file s)) end else Ok s.
(** 481-501 [decode_x]; the part of [out] it writes *)
Definition decode_x (fuel : nat) (width : nat) (file : list Z) (s : input) : res (list Z * input) :=
  do f <- find_sync fuel file s;
  if negb (fst f) then Err OSError
  else
    do r <- decode_values fuel width 0 file (snd f);
    do s <- skip_while (fun s => 0 <? bit s) fuel file (snd r);
    do s <- skip_while (fun s => negb (p s mod 4 =? 0)) fuel file s;
    Ok (fst r, s).

(** ** Images (504-550) *)
(** 529-546: eight rows from four planes *)
Definition weave (width : nat) (pa pb pc pd : list Z) : list Z :=
  let rows y p q := flat_map (fun x => [byte_at p (y * (width / 2) + x); byte_at q (y * (width / 2) + x)]) (seq 0 (width / 2)) in
  flat_map (fun y => rows y pa pb ++ rows y pc pd) (seq 0 4).
(** 515-549: [n] groups of eight rows remain; what is written of [outbuf] *)
Fixpoint groups (fuel : nat) (n : nat) (width : nat) (file : list Z) (s : input) : res (list Z) :=
  match n with
  | O => Ok []
  | S n =>
      if List.length file <=? pos s then Ok []
      else
        let offset := 8 * width / 4 in
        do a <- decode_x fuel offset file s;
        do b <- decode_x fuel offset file (snd a);
        do c <- decode_x fuel offset file (snd b);
        do d <- decode_x fuel offset file (snd c);
        do rest <- groups fuel n width file (snd d);
        Ok (weave width (fst a) (fst b) (fst c) (fst d) ++ rest)
  end.
(** 504-550 [pdecom]: the buffer of zeros, overwritten from the start *)
Definition pdecom (fuel : nat) (file : list Z) (width height : nat) (outbuf : list Z) : res (list Z) :=
  do out <- groups fuel (height / 8) width file (open_bits file);
  Ok (out ++ skipn (List.length out) outbuf).

(** 553-626 [msl_edr_image_loader] *)
(** 617-623 *)
Definition finish (image : arr Z) : arr Z :=
  match shape image with
  | [_; _; _] =>
      let image := moveaxis_2_0 image in
      if nth 0 (shape image) 0 =? 1 then mkArr (tl (shape image)) (fun idx => at_ image (0 :: idx)) else image
  | _ => image
  end.
Definition msl_loader (pillow : list Z -> res picture) (fuel : nat) (file : list Z) : res (arr Z) :=
  match read_header file with
  | None => Err OSError
  | Some raw =>
      let d := decode_header raw in
      let image_bytes := width d * height d * depth d * bands d in
      match image_type d with
      | RAW =>
          let max_image_bytes := if thumbnail d then (width d + 7) * (height d + 7) * depth d * bands d else image_bytes in
          do a <- read_raw_image file d max_image_bytes; Ok (finish a)
      | JPEG => do a <- read_jpeg_image pillow file; Ok (finish a)
      | PRED =>
          do buf <- pdecom fuel file (width d) (height d) (repeat 0%Z (width d * height d * bands d));
          do a <- frombuffer (depth d) buf;
          if bands d =? 1 then reshape [height d; width d] a else reshape [height d; width d; bands d] a
      end
  end.
