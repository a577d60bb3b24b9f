(** Model of the MGS MOC decompressor for predictively compressed and raw images:
    pdr/formats/mgs_moc.py:106-753.  Line numbers cite that file.
    Bytes are integers; an image is the list of its rows. *)
From Coq Require Import ZArith.
From Verif.Base Require Import Py.
From Verif.Model Require Import MocTables.
Open Scope nat_scope.

(** ** Huffman tables (621-753) *)
(** 621-625 *)
Inductive hnode := HNode (value : Z) (zero one : option hnode).
Definition new_node : hnode := HNode 0 None None.
(** 628-653 [ht_insert] *)
Fixpoint ht_insert (length : nat) (root : hnode) (value code : Z) : hnode :=
  match length, root with
  | O, HNode _ z o => HNode value z o
  | S n, HNode v z o =>
      if Z.testbit code 0 then
        HNode v z (Some (ht_insert n (match o with Some t => t | None => new_node end) value (Z.shiftr code 1)))
      else
        HNode v (Some (ht_insert n (match z with Some t => t | None => new_node end) value (Z.shiftr code 1))) o
  end.
(** three bytearrays of 256 *)
Record tables := mkTab { flags : list Z; left_ : list Z; right_ : list Z }.
Fixpoint set_nth (i : nat) (v : Z) (l : list Z) : list Z :=
  match l, i with
  | [], _ => []
  | _ :: l', O => v :: l'
  | x :: l', S j => x :: set_nth j v l'
  end.
Definition byte_at (l : list Z) (i : nat) : Z := nth i l 0%Z.
Definition is_leaf (t : hnode) : bool := match t with HNode _ None None => true | _ => false end.
Definition value_of (t : hnode) : Z := match t with HNode v _ _ => v end.
Definition set_flag (t : tables) (i : nat) (f : Z) (b : bool) : tables :=
  let old := byte_at (flags t) i in
  mkTab (set_nth i (if b then Z.lor old f else Z.ldiff old f) (flags t)) (left_ t) (right_ t).
Definition set_left (t : tables) (i : nat) (v : Z) : tables := mkTab (flags t) (set_nth i v (left_ t)) (right_ t).
Definition set_right (t : tables) (i : nat) (v : Z) : tables := mkTab (flags t) (left_ t) (set_nth i v (right_ t)).
(** 656-688 [ht_tablefy]; an index beyond a byte is an error *)
Fixpoint ht_tablefy (root : hnode) (t : tables) (index : nat) : res (tables * nat) :=
  match root with
  | HNode _ z o =>
      let local := index in
      do p <- match z with
              | None => Ok (t, index)
              | Some c =>
                  if is_leaf c then Ok (set_left (set_flag t index 1 false) index (value_of c), index)
                  else if 255 <? S index then Err ValueError
                  else ht_tablefy c (set_left (set_flag t local 1 true) local (Z.of_nat (S index))) (S index)
              end;
      let '(t, index) := p in
      match o with
      | None => Ok (t, index)
      | Some c =>
          if is_leaf c then Ok (set_right (set_flag t local 2 false) local (value_of c), index)
          else if 255 <? S index then Err ValueError
          else ht_tablefy c (set_right (set_flag t local 2 true) local (Z.of_nat (S index))) (S index)
      end
  end.
(** 691-718 [ht_tree_gen]: residuals 0 to 127, then 255 down to 128, each unless it is
    requantized as the one before *)
Definition ht_tree_gen (bits lens requant : list Z) : hnode :=
  let ins i t := ht_insert (Z.to_nat (byte_at lens i)) t (byte_at requant i) (byte_at bits i) in
  let t := ins 0 new_node in
  let t := fold_left (fun t i => if (byte_at requant i =? byte_at requant (i - 1))%Z then t else ins i t) (seq 1 127) t in
  let t := ins 255 t in
  fold_left (fun t i => if (byte_at requant i =? byte_at requant (i + 1))%Z then t else ins i t) (rev (seq 128 127)) t.
Definition code_bits (k : nat) : list Z :=
  nth k [code0_bits; code1_bits; code2_bits; code3_bits; code4_bits; code5_bits; code6_bits; code7_bits] [].
Definition code_len (k : nat) : list Z :=
  nth k [code0_len; code1_len; code2_len; code3_len; code4_len; code5_len; code6_len; code7_len] [].
Definition code_requant (k : nat) : list Z := if k =? 7 then code7_requant else code_ident_requant.
(** 721-753 [make_huffman_tree] *)
Definition make_huffman_tree (k : nat) : res tables :=
  if 7 <? k then Err IndexError
  else
    do p <- ht_tablefy (ht_tree_gen (code_bits k) (code_len k) (code_requant k)) (mkTab (repeat 0%Z 256) (repeat 0%Z 256) (repeat 0%Z 256)) 0;
    Ok (fst p).

(** ** Reading values (258-266, 467-527) *)
Record bits := mkBits { bit_queue : Z; bit_count : nat; output : nat }.
Definition start (data : list Z) : bits := mkBits (match data with b :: _ => b | [] => 0%Z end) 0 0.
Definition advance (data : list Z) (s : bits) : bits :=
  if 7 <? S (bit_count s) then
    mkBits (if S (output s) <? List.length data then byte_at data (S (output s)) else 0%Z) 0 (S (output s))
  else mkBits (Z.shiftr (bit_queue s) 1) (S (bit_count s)) (output s).
(** the traversal; the fuel is the size of the tables *)
Fixpoint traverse (fuel : nat) (t : tables) (data : list Z) (s : bits) (index : nat) : res (Z * bits) :=
  match fuel with
  | O => Err OutOfFuel
  | S fuel =>
      if (Z.land (bit_queue s) 1 =? 0)%Z then
        if (Z.land (byte_at (flags t) index) 1 =? 0)%Z then Ok (byte_at (left_ t) index, advance data s)
        else traverse fuel t data (advance data s) (Z.to_nat (byte_at (left_ t) index))
      else
        if (Z.land (byte_at (flags t) index) 2 =? 0)%Z then Ok (byte_at (right_ t) index, advance data s)
        else traverse fuel t data (advance data s) (Z.to_nat (byte_at (right_ t) index))
  end.
Definition next_value (t : tables) (data : list Z) (s : bits) : res (Z * bits) := traverse 256 t data s 0.

(** ** Lines (402-428, 530-605).  The line is built from left to right; the previous line
    becomes the current one afterwards in every case. *)
Fixpoint decomp_none (size : nat) (t : tables) (data : list Z) (s : bits) : res (list Z * bits) :=
  match size with
  | O => Ok ([], s)
  | S n => do v <- next_value t data s; do r <- decomp_none n t data (snd v); Ok (fst v :: fst r, snd r)
  end.
Fixpoint decomp_xpred (size : nat) (prev : Z) (t : tables) (data : list Z) (s : bits) : res (list Z * bits) :=
  match size with
  | O => Ok ([], s)
  | S n => do v <- next_value t data s;
           let p := Z.land (prev + fst v) 255 in
           do r <- decomp_xpred n p t data (snd v); Ok (p :: fst r, snd r)
  end.
Fixpoint decomp_ypred (size : nat) (above : list Z) (t : tables) (data : list Z) (s : bits) : res (list Z * bits) :=
  match size with
  | O => Ok ([], s)
  | S n => do v <- next_value t data s;
           let p := Z.land (fst v + hd 0%Z above) 255 in
           do r <- decomp_ypred n (tl above) t data (snd v); Ok (p :: fst r, snd r)
  end.
(** 581-605 *)
Definition decomp_sync (size : nat) (data : list Z) (s : bits) : list Z * bits :=
  let o := output s + 2 in
  let row := map (fun i => if o + i <? List.length data then byte_at data (o + i) else 0%Z) (seq 0 size) in
  let o' := o + Nat.min size (List.length data - o) in
  (row, mkBits (if o' <? List.length data then byte_at data o' else bit_queue s) 0 o').
Definition pred_line (comp_type : Z) (sync : bool) (size : nat) (above : list Z) (t : tables) (data : list Z) (s : bits)
    : res (list Z * bits) :=
  if sync then Ok (decomp_sync size data s)
  else if (comp_type =? 0)%Z then decomp_none size t data s
  else if (comp_type =? 1)%Z then decomp_xpred size 0 t data s
  else if (comp_type =? 2)%Z then decomp_ypred size above t data s
  else Err ValueError.

(** ** Synchronization (431-464) *)
Definition SYNC_WORD : Z := 61642. (* 0xf0ca *)
Definition word_at (data : list Z) (i : nat) : Z := Z.lor (byte_at data i) (Z.shiftl (byte_at data (S i)) 8).
Definition delta_ok (data : list Z) (offset : nat) : bool :=
  forallb (fun i => (offset + i + 1 <? List.length data) && (Z.abs (byte_at data (offset + i) - byte_at data (offset + i + 1)) <=? 64)%Z) (seq 1 31).
Fixpoint sync_loop (remaining : nat) (data : list Z) (offset : nat) : option nat :=
  match remaining with
  | O => None
  | S r =>
      if List.length data <=? offset + 1 then None
      else if (word_at data offset =? SYNC_WORD)%Z && delta_ok data (offset + 2) then Some offset
      else sync_loop r data (S offset)
  end.
Definition find_sync (data : list Z) (length : nat) : option nat :=
  if length <? 2 then None else sync_loop (length - 2) data 2.

(** ** Images (223-245, 278-399) *)
Record header := mkHdr { status : Z; down_length : nat; down_total : nat; edit_length : nat; compression : list Z; frag_length : nat }.
Definition short_at (l : list Z) (i : nat) : nat := Z.to_nat (word_at l i).
Definition long_at (l : list Z) (i : nat) : nat :=
  Z.to_nat (Z.lor (Z.lor (Z.lor (byte_at l i) (Z.shiftl (byte_at l (i + 1)) 8)) (Z.shiftl (byte_at l (i + 2)) 16)) (Z.shiftl (byte_at l (i + 3)) 24)).
(** 226-244: the fields used *)
Definition parse_header (l : list Z) : header :=
  mkHdr (byte_at l 13) (short_at l 6) (short_at l 40) (Z.to_nat (byte_at l 43)) (firstn 8 (skipn 44 l)) (long_at l 58).
(** 335-398; [y] rows are done, [n] are left; the result is the list of rows decoded *)
Fixpoint rows_loop (n : nat) (comp_type : Z) (width total : nat) (t : tables) (data : list Z)
    (y : nat) (s : bits) (last_sync : nat) (above : list Z) : res (list (list Z)) :=
  match n with
  | O => Ok []
  | S n =>
      if (y mod 128 =? 0) && negb (comp_type =? 0)%Z then
        let o := if bit_count s =? 0 then output s else S (output s) in
        let o := if Nat.odd o then S o else o in
        if List.length data <=? o + 1 then Ok []
        else
          do place <- (if (word_at data o =? SYNC_WORD)%Z then Ok (Some (o, o))
                       else match find_sync (skipn last_sync data) (total - last_sync) with
                            | None => Ok None
                            | Some f => Ok (Some (last_sync + f, last_sync))
                            end);
          match place with
          | None => Ok []
          | Some (o, last_sync) =>
              do r <- pred_line comp_type true width above t data (mkBits (bit_queue s) 0 o);
              do rest <- rows_loop n comp_type width total t data (S y) (snd r) last_sync (fst r);
              Ok (fst r :: rest)
          end
      else
        do r <- pred_line comp_type false width above t data s;
        do rest <- rows_loop n comp_type width total t data (S y) (snd r) last_sync (fst r);
        Ok (fst r :: rest)
  end.
Definition pred_decode (h : header) (data : list Z) (t : tables) : res (list (list Z)) :=
  let height := down_total h * 16 in
  let width := edit_length h * 16 in
  rows_loop height (Z.land (byte_at (compression h) 0) 3) width (width * height) t data 0 (start data) 0 (repeat 0%Z width).
(** 278-306 *)
Definition make_pred_image (h : header) (data : list Z) : res (list (list Z)) :=
  do t <- make_huffman_tree (Z.to_nat (Z.land (byte_at (compression h) 1) 15));
  do rows <- pred_decode h data t;
  if List.length (concat rows) =? 0 then Err OSError else Ok rows.

(** ** Files (106-214) *)
Section Loader.
  (** 756-775: decompression of a transform fragment *)
  Variable transform : header -> list Z -> res (list (list Z)).
  Definition HEADER_SIZE := 62.
  Definition LABEL_SIZE : nat := Z.to_nat 2048.
  Definition read_at (file : list Z) (pos n : nat) : list Z := firstn n (skipn pos file).
  (** the end: no end-of-image flag was seen *)
  Definition finish (first : header) (frags : list Z) (images : list (list (list Z))) : res (list (list Z)) :=
    if (Z.land (Z.shiftr (byte_at (compression first) 0) 2) 3 =? 0)%Z then make_pred_image first frags
    else match images with
         | [] => Err ValueError
         | _ =>
             let all := concat images in
             let w := List.length (hd [] all) in
             if forallb (fun row => List.length row =? w) all then Ok all else Err ValueError
         end.
  Fixpoint fragments (fuel : nat) (file : list Z) (total : nat) (first : option header) (frags : list Z) (images : list (list (list Z)))
      : res (list (list Z)) :=
    match fuel with
    | O => Err OutOfFuel
    | S fuel =>
        let head := read_at file (total + LABEL_SIZE) HEADER_SIZE in
        if List.length head <? HEADER_SIZE then
          match first with None => Err ValueError | Some f => finish f frags images end
        else
          let h := parse_header head in
          let f := match first with None => h | Some f => f end in
          if frag_length h =? 0 then
            match first with None => Err ValueError | Some _ => finish f frags images end
          else
            let indat := read_at file (total + LABEL_SIZE + HEADER_SIZE) (frag_length h) in
            let c := byte_at (compression h) 0 in
            let pcomp := Z.land c 3 in
            let xcomp := Z.land (Z.shiftr c 2) 3 in
            let next := total + HEADER_SIZE + frag_length h + 1 in
            if negb (xcomp =? 0)%Z && (pcomp =? 1)%Z then Err ValueError
            else if negb (xcomp =? 0)%Z then
              do image <- transform h indat;
              fragments fuel file next (Some f) frags (images ++ [image])
            else
              let frags := frags ++ indat in
              if Z.testbit (status h) 1 then make_pred_image h frags
              else fragments fuel file next (Some f) frags images
    end.
  (** every fragment takes more than 62 bytes *)
  Definition moc_loader (file : list Z) : res (list (list Z)) := fragments (S (List.length file)) file 0 None [] [].
End Loader.
