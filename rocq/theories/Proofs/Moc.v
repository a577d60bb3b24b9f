(** Proofs for C39, C40, C42: MGS MOC predictive decompression. *)
From Coq Require Import ZArith Lia.
From Verif.Base Require Import Py.
From Verif.Model Require Import MocTables Moc.
From Verif.Spec Require Import Moc.
Open Scope nat_scope.

(** ** Bit positions *)
Lemma byte_bits_len b : List.length (byte_bits b) = 8.
Proof. reflexivity. Qed.
Lemma bits_of_len data : List.length (bits_of data) = 8 * List.length data.
Proof. induction data as [|b data IH]; [reflexivity|]. unfold bits_of in *. cbn [flat_map]. rewrite app_length, IH, byte_bits_len. cbn [List.length]. lia. Qed.
Lemma bits_of_app a b : bits_of (a ++ b) = bits_of a ++ bits_of b.
Proof. apply flat_map_app. Qed.
Lemma bit_nth data i j : j < 8 -> nth (8 * i + j) (bits_of data) false = Z.testbit (byte_at data i) (Z.of_nat j).
Proof.
  intros Hj. revert i. induction data as [|b data IH]; intros i.
  - unfold byte_at. destruct i; cbn [nth]; rewrite Z.testbit_0_l; destruct (8 * _ + j); reflexivity.
  - change (bits_of (b :: data)) with (byte_bits b ++ bits_of data). destruct i as [|i].
    + rewrite app_nth1 by (rewrite byte_bits_len; lia). unfold byte_at; cbn [nth]. unfold byte_bits. replace (8 * 0 + j) with j by lia.
      rewrite (nth_indep _ false (Z.testbit b (Z.of_nat 0))) by (rewrite map_length, seq_length; lia).
      rewrite (map_nth (fun i => Z.testbit b (Z.of_nat i)) (seq 0 8) 0 j), seq_nth by lia. reflexivity.
    + rewrite app_nth2 by (rewrite byte_bits_len; lia). rewrite byte_bits_len. replace (8 * S i + j - 8) with (8 * i + j) by lia. rewrite IH. reflexivity.
Qed.
Lemma start_pos data : at_pos data (start data) 0.
Proof. unfold start, at_pos; cbn. split; [lia|]. split; [reflexivity|]. destruct data; reflexivity. Qed.
Lemma get_beyond data i : List.length data <= i -> byte_at data i = 0%Z.
Proof. intros H. unfold byte_at. now apply nth_overflow. Qed.
Lemma advance_pos data s pos : at_pos data s pos -> at_pos data (advance data s) (S pos).
Proof.
  intros (C & P & Q). unfold advance. destruct (Nat.ltb_spec 7 (S (bit_count s))) as [L|L]; unfold at_pos; cbn [bit_count output bit_queue].
  - split; [lia|]. split; [lia|]. destruct (Nat.ltb_spec (S (output s)) (List.length data)); [reflexivity|].
    rewrite get_beyond by lia. now rewrite Z.shiftr_0_l.
  - split; [lia|]. split; [lia|]. rewrite Q, Z.shiftr_shiftr by lia. f_equal. lia.
Qed.
Lemma land_1_testbit x : (Z.land x 1 =? 0)%Z = negb (Z.testbit x 0).
Proof.
  change 1%Z with (Z.ones 1). rewrite Z.land_ones by lia. change (2 ^ 1)%Z with 2%Z. rewrite Z.bit0_odd.
  rewrite Zmod_odd. destruct (Z.odd x); reflexivity.
Qed.
Lemma queue_bit data s pos : at_pos data s pos -> (Z.land (bit_queue s) 1 =? 0)%Z = negb (nth pos (bits_of data) false).
Proof.
  intros (C & P & Q). rewrite land_1_testbit, Q, Z.shiftr_spec by lia. now rewrite P, bit_nth by lia.
Qed.

(** ** The traversal reads a code word *)
Fixpoint walk (fuel : nat) (t : tables) (bs : list bool) (index : nat) : option (Z * list bool) :=
  match fuel, bs with
  | S fuel, b :: bs =>
      let f := if b then 2%Z else 1%Z in let side := if b then right_ t else left_ t in
      if (Z.land (byte_at (flags t) index) f =? 0)%Z then Some (byte_at side index, bs)
      else walk fuel t bs (Z.to_nat (byte_at side index))
  | _, _ => None
  end.
Lemma traverse_walk t data : forall fuel c s pos index v, at_pos data s pos -> walk fuel t c index = Some (v, []) ->
  (forall i, i < List.length c -> nth i c false = nth (pos + i) (bits_of data) false) ->
  exists s', traverse fuel t data s index = Ok (v, s') /\ at_pos data s' (pos + List.length c).
Proof.
  induction fuel as [|fuel IH]; intros c s pos index v A W M; [discriminate|]. destruct c as [|b c]; [discriminate|].
  pose proof (M 0 ltac:(cbn; lia)) as B. cbn [nth] in B. rewrite Nat.add_0_r in B. cbn [walk] in W. cbn [traverse].
  rewrite (queue_bit _ _ _ A), <- B.
  assert (Next : forall i, i < List.length c -> nth i c false = nth (S pos + i) (bits_of data) false).
  { intros i L. specialize (M (S i) ltac:(cbn; lia)). cbn [nth] in M. rewrite M. f_equal. lia. }
  destruct b; cbn [negb] in *.
  - destruct (Z.land (byte_at (flags t) index) 2 =? 0)%Z.
    + injection W as <- ->. eexists. split; [reflexivity|]. cbn [List.length]. replace (pos + 1) with (S pos) by lia. now apply advance_pos.
    + destruct (IH c (advance data s) (S pos) _ v (advance_pos _ _ _ A) W Next) as (s' & E & A'). exists s'. split; [exact E|]. cbn [List.length]. now replace (pos + S (List.length c)) with (S pos + List.length c) by lia.
  - destruct (Z.land (byte_at (flags t) index) 1 =? 0)%Z.
    + injection W as <- ->. eexists. split; [reflexivity|]. cbn [List.length]. replace (pos + 1) with (S pos) by lia. now apply advance_pos.
    + destruct (IH c (advance data s) (S pos) _ v (advance_pos _ _ _ A) W Next) as (s' & E & A'). exists s'. split; [exact E|]. cbn [List.length]. now replace (pos + S (List.length c)) with (S pos + List.length c) by lia.
Qed.

(** ** The tables, by computation *)
Definition table (k : nat) : tables := match make_huffman_tree k with Ok t => t | Err _ => mkTab [] [] [] end.
Lemma table_ok k : k < 8 -> make_huffman_tree k = Ok (table k).
Proof. intros H. do 8 (destruct k as [|k]; [vm_compute; reflexivity|]). lia. Qed.
Definition word_ok (t : tables) (k : nat) (v : nat) : bool :=
  match walk 256 t (codeword k (Z.of_nat v)) 0 with
  | Some (w, []) => (w =? means k (Z.of_nat v))%Z && (0 <=? w)%Z && (w <? 256)%Z | _ => false end.
Lemma words_ok : forallb (fun k => let t := table k in forallb (word_ok t k) (seq 0 256)) (seq 0 8) = true.
Proof. vm_compute. reflexivity. Qed.
Lemma codeword_walk k v : k < 8 -> is_byte v -> walk 256 (table k) (codeword k v) 0 = Some (means k v, []) /\ is_byte (means k v).
Proof.
  intros Hk Hv. pose proof words_ok as W. rewrite forallb_forall in W. specialize (W k). cbv zeta in W. rewrite forallb_forall in W.
  - specialize (W ltac:(apply in_seq; lia) (Z.to_nat v)). unfold is_byte in *. specialize (W ltac:(apply in_seq; lia)).
    unfold word_ok in W. rewrite Z2Nat.id in W by lia. destruct (walk 256 (table k) (codeword k v) 0) as [[w [|]]|]; try discriminate.
    apply andb_true_iff in W as [W W3]. apply andb_true_iff in W as [W1 W2]. apply Z.eqb_eq in W1. apply Z.leb_le in W2. apply Z.ltb_lt in W3. subst w. split; [reflexivity|lia].
Qed.
Lemma codeword_nonempty k v : k < 8 -> is_byte v -> codeword k v <> [].
Proof. intros Hk Hv E. destruct (codeword_walk k v Hk Hv) as [W _]. rewrite E in W. discriminate. Qed.

Lemma stands_app data pos a b : stands data pos (a ++ b) -> stands data pos a /\ stands data (pos + List.length a) b.
Proof.
  intros H. split; intros i L.
  - specialize (H i ltac:(rewrite app_length; lia)). now rewrite app_nth1 in H.
  - specialize (H (List.length a + i) ltac:(rewrite app_length; lia)). rewrite app_nth2 in H by lia.
    replace (List.length a + i - List.length a) with i in H by lia. rewrite H. f_equal. lia.
Qed.
Lemma stands_in pre body post c pad : bits_of body = c ++ pad -> stands (pre ++ body ++ post) (8 * List.length pre) c.
Proof.
  intros E i L. rewrite !bits_of_app, E, app_nth2 by (rewrite bits_of_len; lia). rewrite bits_of_len.
  replace (8 * List.length pre + i - 8 * List.length pre) with i by lia. rewrite app_nth1 by (rewrite app_length; lia). now rewrite app_nth1.
Qed.
Lemma next_value_ok k v data s pos : k < 8 -> is_byte v -> at_pos data s pos -> stands data pos (codeword k v) ->
  exists s', next_value (table k) data s = Ok (means k v, s') /\ at_pos data s' (pos + List.length (codeword k v)).
Proof. intros Hk Hv A S. destruct (codeword_walk k v Hk Hv) as [W _]. exact (traverse_walk (table k) data 256 _ s pos 0 _ A W S). Qed.

(** ** Rows *)
Definition method_code (kind : prediction) : Z := match kind with NoPrediction => 0 | FromLeft => 1 | FromAbove => 2 end.
Lemma land_255 x : Z.land x 255 = (x mod 256)%Z.
Proof. change 255%Z with (Z.ones 8). now rewrite Z.land_ones by lia. Qed.
Lemma row_none k left above row bs : row_coded k NoPrediction left above row bs -> k < 8 -> forall data s pos, at_pos data s pos -> stands data pos bs ->
  exists s', decomp_none (List.length row) (table k) data s = Ok (row, s') /\ at_pos data s' (pos + List.length bs).
Proof.
  intros R Hk. induction R as [left above|left above p row bs bs' (v & Hv & Ep & Eb) R IH]; intros data s pos A S.
  - exists s. split; [reflexivity|]. cbn. now rewrite Nat.add_0_r.
  - apply stands_app in S as [S1 S2]. subst bs. destruct (next_value_ok k v data s pos Hk Hv A S1) as (s1 & E1 & A1).
    destruct (IH data s1 _ A1 S2) as (s2 & E2 & A2). exists s2. cbn [List.length decomp_none]. rewrite E1. cbn [rbind snd fst]. rewrite E2. cbn [rbind fst snd].
    rewrite app_length, Nat.add_assoc. split; [|exact A2]. destruct (codeword_walk k v Hk Hv) as [_ B]. unfold is_byte in B. rewrite Z.mod_small in Ep by lia. cbn in Ep. now subst p.
Qed.
Lemma row_left k left above row bs : row_coded k FromLeft left above row bs -> k < 8 -> forall data s pos, at_pos data s pos -> stands data pos bs ->
  exists s', decomp_xpred (List.length row) left (table k) data s = Ok (row, s') /\ at_pos data s' (pos + List.length bs).
Proof.
  intros R Hk. induction R as [left above|left above p row bs bs' (v & Hv & Ep & Eb) R IH]; intros data s pos A S.
  - exists s. split; [reflexivity|]. cbn. now rewrite Nat.add_0_r.
  - apply stands_app in S as [S1 S2]. subst bs. destruct (next_value_ok k v data s pos Hk Hv A S1) as (s1 & E1 & A1).
    destruct (IH data s1 _ A1 S2) as (s2 & E2 & A2). exists s2. cbn [List.length decomp_xpred]. rewrite E1. cbn [rbind snd fst]. rewrite land_255, <- Ep, E2. cbn [rbind fst snd].
    rewrite app_length, Nat.add_assoc. split; [reflexivity|exact A2].
Qed.
Lemma row_above k left above row bs : row_coded k FromAbove left above row bs -> k < 8 -> forall data s pos, at_pos data s pos -> stands data pos bs ->
  exists s', decomp_ypred (List.length row) above (table k) data s = Ok (row, s') /\ at_pos data s' (pos + List.length bs).
Proof.
  intros R Hk. induction R as [left above|left above p row bs bs' (v & Hv & Ep & Eb) R IH]; intros data s pos A S.
  - exists s. split; [reflexivity|]. cbn. now rewrite Nat.add_0_r.
  - apply stands_app in S as [S1 S2]. subst bs. destruct (next_value_ok k v data s pos Hk Hv A S1) as (s1 & E1 & A1).
    destruct (IH data s1 _ A1 S2) as (s2 & E2 & A2). exists s2. cbn [List.length decomp_ypred]. rewrite E1. cbn [rbind snd fst]. rewrite land_255, Z.add_comm, <- Ep, E2. cbn [rbind fst snd].
    rewrite app_length, Nat.add_assoc. split; [reflexivity|exact A2].
Qed.
Lemma row_line k kind above row bs data s pos : row_coded k kind 0%Z above row bs -> k < 8 -> at_pos data s pos -> stands data pos bs ->
  exists s', pred_line (method_code kind) false (List.length row) above (table k) data s = Ok (row, s') /\ at_pos data s' (pos + List.length bs).
Proof.
  intros R Hk A S. destruct kind; [exact (row_none k 0%Z above row bs R Hk data s pos A S)|exact (row_left k 0%Z above row bs R Hk data s pos A S)|exact (row_above k 0%Z above row bs R Hk data s pos A S)].
Qed.
Lemma row_coded_len k kind left above row bs : k < 8 -> row_coded k kind left above row bs -> List.length row <= List.length bs.
Proof.
  intros Hk. induction 1 as [|left above p row bs bs' (v & Hv & _ & ->) R IH]; [cbn; lia|]. rewrite app_length. cbn [List.length].
  pose proof (codeword_nonempty k v Hk Hv). destruct (codeword k v); [congruence|]. cbn [List.length]. lia.
Qed.
Lemma rows_run k kind width total above rows bs : rows_coded k kind above rows bs -> k < 8 -> Forall (fun r => List.length r = width) rows ->
  forall data s pos y n last tail, at_pos data s pos -> stands data pos bs ->
  (kind = NoPrediction \/ forall i, i < List.length rows -> (y + i) mod 128 <> 0) ->
  (forall s' above', at_pos data s' (pos + List.length bs) ->
     rows_loop n (method_code kind) width total (table k) data (y + List.length rows) s' last above' = Ok tail) ->
  rows_loop (List.length rows + n) (method_code kind) width total (table k) data y s last above = Ok (rows ++ tail).
Proof.
  intros R Hk. induction R as [above|above row rows bs bs' Rr Rs IH]; intros F data s pos y n last tail A S NS K.
  - cbn [List.length app] in *. rewrite Nat.add_0_l. specialize (K s above). rewrite !Nat.add_0_r in K. now apply K.
  - inversion F as [|? ? Fr Fs]; subst. apply stands_app in S as [S1 S2]. cbn [List.length Nat.add rows_loop].
    replace ((y mod 128 =? 0) && negb (method_code kind =? 0)%Z) with false.
    2:{ symmetry. destruct NS as [->|NS]; [now rewrite andb_false_r|]. specialize (NS 0 ltac:(cbn; lia)). rewrite Nat.add_0_r in NS. now rewrite (proj2 (Nat.eqb_neq _ _) NS). }
    destruct (row_line k kind above row bs data s pos Rr Hk A S1) as (s1 & E1 & A1). rewrite E1. cbn [rbind fst snd].
    erewrite IH; [cbn [rbind app]; reflexivity|exact Fs|exact A1|exact S2| |].
    + destruct NS as [->|NS]; [now left|right]. intros i L. specialize (NS (Datatypes.S i) ltac:(cbn; lia)). now replace (Datatypes.S y + i) with (y + Datatypes.S i) by lia.
    + intros s' above' A'. replace (Datatypes.S y + List.length rows) with (y + List.length (row :: rows)) by (cbn; lia). apply K. rewrite app_length, Nat.add_assoc. exact A'.
Qed.

(** ** Groups of 128 rows *)
Lemma byte_at_app pre l i : byte_at (pre ++ l) (List.length pre + i) = byte_at l i.
Proof. unfold byte_at. rewrite app_nth2 by lia. f_equal. lia. Qed.
Definition aligned (s : bits) : nat := let o := if bit_count s =? 0 then output s else S (output s) in if Nat.odd o then S o else o.
Lemma even_S o : Nat.even o = true -> Nat.even (S o) = false.
Proof. intros E. rewrite Nat.even_succ, <- Nat.negb_even, E. reflexivity. Qed.
Lemma even_div o : Nat.even o = true -> exists h, o = 2 * h.
Proof. intros E. apply Nat.even_spec in E. exact E. Qed.
Lemma odd_false h : Nat.odd (2 * h) = false.
Proof. rewrite <- Nat.negb_even. apply negb_false_iff, Nat.even_spec. now exists h. Qed.
Lemma odd_true h : Nat.odd (2 * h + 1) = true.
Proof. apply Nat.odd_spec. now exists h. Qed.
Lemma aligned_at data s a b n pad : at_pos data s (8 * a + n) -> Nat.even a = true -> Nat.even b = true -> 8 * b = n + pad -> pad < 16 -> aligned s = a + b.
Proof.
  intros (C & P & _) Ea Eb Hn Hp. apply even_div in Ea as [ha ->]. apply even_div in Eb as [hb ->]. unfold aligned. cbv zeta.
  destruct (Nat.eqb_spec (bit_count s) 0) as [Z0|Z0].
  - assert (output s = 2 * (ha + hb) \/ output s = 2 * (ha + hb - 1) + 1 /\ 0 < ha + hb) as [->|[-> L]] by lia.
    + rewrite odd_false. lia.
    + rewrite odd_true. lia.
  - assert (S (output s) = 2 * (ha + hb) \/ S (output s) = 2 * (ha + hb - 1) + 1 /\ 0 < ha + hb) as [->|[-> L]] by lia.
    + rewrite odd_false. lia.
    + rewrite odd_true. lia.
Qed.
Lemma sync_row pre first rest : map (fun i => if List.length pre + 2 + i <? List.length (pre ++ 202%Z :: 240%Z :: first ++ rest)
    then byte_at (pre ++ 202%Z :: 240%Z :: first ++ rest) (List.length pre + 2 + i) else 0%Z) (seq 0 (List.length first)) = first.
Proof.
  transitivity (map (fun i => nth i first 0%Z) (seq 0 (List.length first))).
  - apply map_ext_in. intros i I. apply in_seq in I. destruct (Nat.ltb_spec (List.length pre + 2 + i) (List.length (pre ++ 202%Z :: 240%Z :: first ++ rest))) as [L|L].
    + rewrite <- Nat.add_assoc, byte_at_app. unfold byte_at. cbn [Nat.add nth]. rewrite app_nth1 by lia. reflexivity.
    + rewrite app_length in L. cbn [List.length] in L. rewrite app_length in L. lia.
  - clear. induction first as [|x first IH]; [reflexivity|]. cbn [List.length seq map nth]. f_equal. rewrite <- seq_shift, map_map. exact IH.
Qed.
Lemma group_step k kind width total pre first rest s y n last above : kind <> NoPrediction -> y mod 128 = 0 -> aligned s = List.length pre -> List.length first = width ->
  let data := pre ++ 202%Z :: 240%Z :: first ++ rest in
  let o := List.length pre + 2 + width in
  rows_loop (S n) (method_code kind) width total (table k) data y s last above =
  rbind (rows_loop n (method_code kind) width total (table k) data (S y)
    (mkBits (if o <? List.length data then byte_at data o else bit_queue s) 0 o) (List.length pre) first)
    (fun r => Ok (first :: r)).
Proof.
  intros NK Hy Al Hw. cbv zeta. cbn [rows_loop]. rewrite Hy. cbn [Nat.eqb].
  replace (negb (method_code kind =? 0)%Z) with true by (destruct kind; [congruence|reflexivity|reflexivity]). cbn [andb].
  change (if Nat.odd (if bit_count s =? 0 then output s else S (output s)) then S (if bit_count s =? 0 then output s else S (output s)) else if bit_count s =? 0 then output s else S (output s)) with (aligned s).
  rewrite Al. set (data := pre ++ 202%Z :: 240%Z :: first ++ rest).
  assert (Ld : List.length data = List.length pre + 2 + List.length first + List.length rest) by (unfold data; rewrite app_length; cbn [List.length]; rewrite app_length; lia).
  destruct (Nat.leb_spec (List.length data) (List.length pre + 1)) as [L|L]; [lia|].
  assert (W : word_at data (List.length pre) = SYNC_WORD).
  { unfold word_at, data. rewrite <- (Nat.add_0_r (List.length pre)) at 1. rewrite byte_at_app. replace (S (List.length pre)) with (List.length pre + 1) by lia. rewrite byte_at_app. reflexivity. }
  rewrite W. cbn [rbind Z.eqb]. change (SYNC_WORD =? SYNC_WORD)%Z with true. cbv iota. cbn [rbind]. unfold pred_line. cbn [rbind].
  unfold decomp_sync. cbn [output bit_queue fst snd]. rewrite <- Hw. unfold data. rewrite sync_row. fold data.
  replace (List.length pre + 2 + Nat.min (List.length first) (List.length data - (List.length pre + 2))) with (List.length pre + 2 + List.length first) by lia.
  reflexivity.
Qed.
Lemma rows_coded_len k kind width above rows bs : k < 8 -> 0 < width -> Forall (fun r => List.length r = width) rows -> rows_coded k kind above rows bs -> List.length rows <= List.length bs.
Proof.
  intros Hk Hw F. induction 1 as [|above row rows bs bs' R Rs IH]; [cbn; lia|]. inversion F as [|? ? Fr Fs]; subst. rewrite app_length. cbn [List.length].
  apply (row_coded_len _ _ _ _ _ _ Hk) in R. specialize (IH Fs). lia.
Qed.
Lemma mod_128 y i : y mod 128 = 0 -> i < 127 -> (S y + i) mod 128 <> 0.
Proof.
  intros Hy Hi. apply Nat.mod_divides in Hy; [|lia]. destruct Hy as [q ->]. replace (S (128 * q) + i) with (S i + q * 128) by lia.
  rewrite Nat.mod_add by lia. rewrite Nat.mod_small by lia. lia.
Qed.
Lemma after_sync k kind width total pre first body post more bs pad y s n last tail :
  k < 8 -> kind <> NoPrediction -> 0 < width -> List.length first = width -> Forall (fun r => List.length r = width) more ->
  List.length more < 128 -> rows_coded k kind first more bs -> bits_of body = bs ++ pad -> y mod 128 = 0 ->
  let data := pre ++ 202%Z :: 240%Z :: first ++ body ++ post in
  let o := List.length pre + 2 + width in
  (more <> [] \/ tail = [] /\ n = 0) ->
  (forall s' above', at_pos data s' (8 * o + List.length bs) -> rows_loop n (method_code kind) width total (table k) data (S y + List.length more) s' last above' = Ok tail) ->
  rows_loop (List.length more + n) (method_code kind) width total (table k) data (S y)
    (mkBits (if o <? List.length data then byte_at data o else bit_queue s) 0 o) last first = Ok (more ++ tail).
Proof.
  intros Hk NK W Hf F Lm R Eb Hy data o Ne K.
  pose proof (f_equal (@List.length bool) Eb) as Lb. rewrite bits_of_len, app_length in Lb.
  pose proof (rows_coded_len k kind width first more bs Hk W F R) as Lr.
  assert (Ed : data = (pre ++ 202%Z :: 240%Z :: first) ++ body ++ post) by (unfold data; rewrite <- app_assoc; reflexivity).
  assert (Lo : List.length (pre ++ 202%Z :: 240%Z :: first) = o) by (rewrite app_length; cbn [List.length]; unfold o; lia).
  destruct more as [|row more].
  - cbn [List.length app Nat.add]. destruct Ne as [Ne|[-> ->]]; [congruence|]. reflexivity.
  - assert (Ls : o < List.length data). { rewrite Ed, app_length, Lo, app_length. cbn [List.length] in Lr. lia. }
    apply Nat.ltb_lt in Ls. rewrite Ls.
    apply (rows_run k kind width total first (row :: more) bs R Hk F data _ (8 * o)).
    + split; [cbn; lia|]. split; [cbn; lia|]. reflexivity.
    + rewrite Ed, <- Lo. now apply (stands_in _ body post bs pad).
    + right. intros i Hi. apply mod_128; [exact Hy|lia].
    + intros s' above' A. now apply K.
Qed.
Lemma image_rows k kind rows data : image_coded k kind rows data -> kind <> NoPrediction -> k < 8 -> forall width, 0 < width -> Nat.even width = true -> Forall (fun r => List.length r = width) rows ->
  forall total pre s y last above, Nat.even (List.length pre) = true -> aligned s = List.length pre -> y mod 128 = 0 ->
  rows_loop (List.length rows) (method_code kind) width total (table k) (pre ++ data) y s last above = Ok rows.
Proof.
  intros C NK Hk width W Ew. induction C as [rows data bs pad KN|first more body bs pad _ Lm R Eb|first more body bs pad rest data _ Lm R Eb Lp Ee C IH]; intros F total pre s y last above Ep Al Hy.
  - congruence.
  - inversion F as [|? ? Ff Fm]; subst. cbn [List.length]. rewrite (group_step k kind _ total pre first body s y _ last above NK Hy Al eq_refl).
    pose proof (after_sync k kind (List.length first) total pre first body [] more bs pad y s 0 (List.length pre) [] Hk NK W eq_refl Fm Lm R Eb Hy) as G.
    cbv zeta in G. rewrite app_nil_r, Nat.add_0_r, app_nil_r in G. rewrite G; [reflexivity| |reflexivity]. destruct more; [right; auto|left; discriminate].
  - inversion F as [|? ? Ff Fm]; subst. apply Forall_app in Fm as [Fm Fr]. cbn [List.length]. rewrite (group_step k kind _ total pre first (body ++ data) s y _ last above NK Hy Al eq_refl).
    pose proof (after_sync k kind (List.length first) total pre first body data more bs pad y s (List.length rest) (List.length pre) rest Hk NK W eq_refl Fm ltac:(lia) R Eb Hy) as G.
    cbv zeta in G. rewrite app_length, G; [reflexivity|left; intros ->; discriminate|].
    intros s' above' A. replace (pre ++ 202%Z :: 240%Z :: first ++ body ++ data) with ((pre ++ 202%Z :: 240%Z :: first ++ body) ++ data) by (rewrite <- !app_assoc; cbn [app]; now rewrite <- app_assoc).
    pose proof (f_equal (@List.length bool) Eb) as Lb. rewrite bits_of_len, app_length in Lb.
    assert (E2 : Nat.even (List.length pre + 2 + List.length first) = true) by (rewrite !Nat.even_add, Ep, Ew; reflexivity).
    apply IH; [exact Fr| | |].
    + rewrite app_length. cbn [List.length]. rewrite app_length. replace (List.length pre + S (S (List.length first + List.length body))) with (List.length pre + 2 + List.length first + List.length body) by lia.
      rewrite Nat.even_add, E2, Ee. reflexivity.
    + rewrite app_length. cbn [List.length]. rewrite app_length. replace (List.length pre + S (S (List.length first + List.length body))) with (List.length pre + 2 + List.length first + List.length body) by lia.
      exact (aligned_at _ s' _ _ _ (List.length pad) A E2 Ee Lb Lp).
    + rewrite Lm. replace (S y + 127) with (y + 1 * 128) by lia. now rewrite Nat.mod_add by lia.
Qed.
Lemma groups_rows k kind rows data : groups_coded k kind rows data -> kind <> NoPrediction -> k < 8 -> forall width, 0 < width -> Nat.even width = true -> Forall (fun r => List.length r = width) rows ->
  forall total pre post s y last above n tail, Nat.even (List.length pre) = true -> aligned s = List.length pre -> y mod 128 = 0 ->
  (forall s' last' above', aligned s' = List.length (pre ++ data) -> rows_loop n (method_code kind) width total (table k) (pre ++ data ++ post) (y + List.length rows) s' last' above' = Ok tail) ->
  rows_loop (List.length rows + n) (method_code kind) width total (table k) (pre ++ data ++ post) y s last above = Ok (rows ++ tail).
Proof.
  intros C NK Hk width W Ew. induction C as [|first more body bs pad rest data Lm R Eb Lp Ee C IH]; intros F total pre post s y last above n tail Ep Al Hy K.
  - cbn [List.length Nat.add app] in *. specialize (K s last above). rewrite app_nil_r, Nat.add_0_r in K. now apply K.
  - inversion F as [|? ? Ff Fm]; subst. apply Forall_app in Fm as [Fm Fr]. cbn [List.length app Nat.add].
    cbn [app] in K. replace ((first ++ body ++ data) ++ post) with (first ++ body ++ data ++ post) in * by (now rewrite <- !app_assoc).
    rewrite (group_step k kind _ total pre first (body ++ data ++ post) s y _ last above NK Hy Al eq_refl).
    pose proof (after_sync k kind (List.length first) total pre first body (data ++ post) more bs pad y s (List.length rest + n) (List.length pre) (rest ++ tail) Hk NK W eq_refl Fm ltac:(lia) R Eb Hy) as G.
    cbv zeta in G. rewrite app_length, <- Nat.add_assoc, G; [cbn [rbind]; now rewrite <- app_assoc|left; intros ->; discriminate|].
    intros s' above' A.
    assert (Ed : pre ++ 202%Z :: 240%Z :: first ++ body ++ data ++ post = (pre ++ 202%Z :: 240%Z :: first ++ body) ++ data ++ post) by (rewrite <- !app_assoc; cbn [app]; now rewrite <- app_assoc).
    rewrite Ed in K |- *.
    pose proof (f_equal (@List.length bool) Eb) as Lb. rewrite bits_of_len, app_length in Lb.
    assert (E2 : Nat.even (List.length pre + 2 + List.length first) = true) by (rewrite !Nat.even_add, Ep, Ew; reflexivity).
    assert (Lq : List.length (pre ++ 202%Z :: 240%Z :: first ++ body) = List.length pre + 2 + List.length first + List.length body) by (rewrite app_length; cbn [List.length]; rewrite app_length; lia).
    apply IH; [exact Fr| | | |].
    + rewrite Lq, Nat.even_add, E2, Ee. reflexivity.
    + rewrite Lq. exact (aligned_at _ s' _ _ _ (List.length pad) A E2 Ee Lb Lp).
    + rewrite Lm. replace (S y + 127) with (y + 1 * 128) by lia. now rewrite Nat.mod_add by lia.
    + intros s'' last' above'' A'. replace (S y + List.length more + List.length rest) with (y + S (List.length more + List.length rest)) by lia.
      rewrite <- (app_length more rest). apply K. rewrite A', !app_length. cbn [List.length]. rewrite !app_length. lia.
Qed.
Lemma raw_rows k rows data : image_coded k NoPrediction rows data -> k < 8 -> forall width total last above, Forall (fun r => List.length r = width) rows ->
  (forall bs, rows_coded k NoPrediction [] rows bs -> rows_coded k NoPrediction above rows bs) ->
  rows_loop (List.length rows) 0 width total (table k) data 0 (start data) last above = Ok rows.
Proof.
  intros C Hk width total last above F Any. inversion C as [r d bs pad _ R Eb| |]; subst; try congruence.
  pose proof (rows_run k NoPrediction width total above rows bs (Any _ R) Hk F data (start data) 0 0 0 last []) as G.
  rewrite Nat.add_0_r, app_nil_r in G. apply G.
  - apply start_pos.
  - pose proof (stands_in [] data [] bs pad Eb) as S. cbn [List.length Nat.mul app] in S. rewrite app_nil_r in S. exact S.
  - now left.
  - reflexivity.
Qed.
Lemma row_coded_any k left above left' above' row bs : row_coded k NoPrediction left above row bs -> row_coded k NoPrediction left' above' row bs.
Proof.
  intros R. revert left' above'. induction R as [|left above p row bs bs' P R IH]; intros left' above'; [constructor|]. constructor; [exact P|apply IH].
Qed.
Lemma rows_coded_any k above above' rows bs : rows_coded k NoPrediction above rows bs -> rows_coded k NoPrediction above' rows bs.
Proof. intros R. inversion R; subst; constructor; [eapply row_coded_any; eassumption|assumption]. Qed.
(** every kind, from the start of the data *)
Lemma image_all k kind rows data width total : image_coded k kind rows data -> k < 8 -> 0 < width -> Nat.even width = true -> Forall (fun r => List.length r = width) rows ->
  rows_loop (List.length rows) (method_code kind) width total (table k) data 0 (start data) 0 (repeat 0%Z width) = Ok rows.
Proof.
  intros C Hk W E F. destruct kind.
  - apply (raw_rows k rows data C Hk width total 0 _ F). intros bs. apply rows_coded_any.
  - pose proof (image_rows k FromLeft rows data C ltac:(discriminate) Hk width W E F total [] (start data) 0 0 (repeat 0%Z width)) as G. now apply G.
  - pose proof (image_rows k FromAbove rows data C ltac:(discriminate) Hk width W E F total [] (start data) 0 0 (repeat 0%Z width)) as G. now apply G.
Qed.

(** ** Headers and files *)
Lemma lor_shift a b n : (0 <= n)%Z -> (0 <= a < 2 ^ n)%Z -> Z.lor a (Z.shiftl b n) = (a + b * 2 ^ n)%Z.
Proof.
  intros Hn Ha.
  assert (L : Z.land a (Z.shiftl b n) = 0%Z).
  { apply Z.bits_inj'. intros m Hm. rewrite Z.land_spec, Z.bits_0, Z.shiftl_spec by lia. destruct (Z.lt_ge_cases m n) as [Lt|Ge].
    - rewrite (Z.testbit_neg_r b) by lia. apply andb_false_r.
    - replace (Z.testbit a m) with false; [reflexivity|]. symmetry. destruct (Z.eq_dec a 0) as [->|Na]; [apply Z.bits_0|].
      apply Z.bits_above_log2; [lia|]. apply Z.log2_lt_pow2; [lia|]. apply Z.lt_le_trans with (2 ^ n)%Z; [lia|]. apply Z.pow_le_mono_r; lia. }
  rewrite <- Z.lxor_lor, <- Z.add_nocarry_lxor by exact L. now rewrite Z.shiftl_mul_pow2 by lia.
Qed.
Lemma byte_at_error l i b : nth_error l i = Some b -> byte_at l i = b.
Proof. intros H. unfold byte_at. now apply nth_error_nth. Qed.
Lemma short_ok n l i : le16 n l i -> (0 <= n)%Z -> Z.of_nat (short_at l i) = n.
Proof.
  intros [A B] P. unfold short_at, word_at. rewrite (byte_at_error _ _ _ A), (byte_at_error _ _ _ B).
  pose proof (Z.mod_pos_bound n 256 ltac:(lia)). pose proof (Z.div_mod n 256 ltac:(lia)). rewrite lor_shift by (cbn; lia). change (2 ^ 8)%Z with 256%Z. lia.
Qed.
Lemma long_ok lo hi l i : le16 lo l i -> le16 hi l (S (S i)) -> (0 <= lo < 65536)%Z -> (0 <= hi)%Z -> Z.of_nat (long_at l i) = (lo + 65536 * hi)%Z.
Proof.
  intros [A B] [C D] P Q. unfold long_at. replace (i + 1) with (S i) by lia. replace (i + 2) with (S (S i)) by lia. replace (i + 3) with (S (S (S i))) by lia.
  rewrite (byte_at_error _ _ _ A), (byte_at_error _ _ _ B), (byte_at_error _ _ _ C), (byte_at_error _ _ _ D).
  pose proof (Z.mod_pos_bound lo 256 ltac:(lia)). pose proof (Z.div_mod lo 256 ltac:(lia)). pose proof (Z.mod_pos_bound hi 256 ltac:(lia)). pose proof (Z.div_mod hi 256 ltac:(lia)).
  assert (0 <= lo / 256 < 256)%Z by (split; [apply Z.div_pos; lia|apply Z.div_lt_upper_bound; lia]).
  rewrite (lor_shift (lo mod 256) (lo / 256) 8) by (change (2 ^ 8)%Z with 256%Z; lia). change (2 ^ 8)%Z with 256%Z.
  rewrite (lor_shift (lo mod 256 + lo / 256 * 256) (hi mod 256) 16) by (change (2 ^ 16)%Z with 65536%Z; lia). change (2 ^ 16)%Z with 65536%Z.
  rewrite (lor_shift (lo mod 256 + lo / 256 * 256 + hi mod 256 * 65536) (hi / 256) 24) by (change (2 ^ 24)%Z with 16777216%Z; lia). change (2 ^ 24)%Z with 16777216%Z.
  assert (0 <= hi / 256)%Z by (apply Z.div_pos; lia). lia.
Qed.
Lemma le16_bytes n l i : Forall is_byte l -> le16 n l i -> (0 <= n < 65536)%Z.
Proof.
  intros F [A B]. apply nth_error_In in A, B. rewrite Forall_forall in F. apply F in A, B. unfold is_byte in *. pose proof (Z.div_mod n 256 ltac:(lia)). lia.
Qed.
Definition frag_bytes (f : fragment) : list Z := head f ++ content f ++ [check f].
Lemma read_skip a b c n : List.length b = n -> read_at (a ++ b ++ c) (List.length a) n = b.
Proof.
  intros <-. unfold read_at. rewrite skipn_app, Nat.sub_diag, skipn_all. cbn [skipn app]. rewrite firstn_app, Nat.sub_diag, firstn_all. cbn [firstn]. apply app_nil_r.
Qed.
Lemma frag_len f : well_formed f -> frag_length (parse_header (head f)) = List.length (content f) /\ 0 < List.length (content f).
Proof.
  intros (L & N & Fh & Fc & lo & hi & A & B & E). split.
  - unfold parse_header. cbn [frag_length]. pose proof (long_ok lo hi _ 58 A B (le16_bytes _ _ _ Fh A) ltac:(pose proof (le16_bytes _ _ _ Fh B); lia)). lia.
  - destruct (content f); [congruence|cbn; lia].
Qed.
Lemma comp0 f c : nth_error (head f) 44 = Some c -> byte_at (compression (parse_header (head f))) 0 = c.
Proof.
  intros H. unfold parse_header. cbn [compression]. unfold byte_at. change 44 with (44 + 0) in H.
  assert (E : forall m (l : list Z), nth_error l m = Some c -> exists r, skipn m l = c :: r). { intros m. induction m; intros [|x l] Hx; try discriminate; [injection Hx as ->; eexists; reflexivity|]. cbn [skipn]. now apply IHm. }
  destruct (E 44 (head f) H) as [r Er]. rewrite Er. reflexivity.
Qed.
Lemma comp1 f c : nth_error (head f) 45 = Some c -> byte_at (compression (parse_header (head f))) 1 = c.
Proof.
  intros H. unfold parse_header. cbn [compression]. unfold byte_at.
  assert (E : forall m (l : list Z), nth_error l (S m) = Some c -> exists x r, skipn m l = x :: c :: r).
  { intros m. induction m as [|m IHm]; intros l Hx.
    - destruct l as [|x [|y l]]; try discriminate. injection Hx as ->. do 2 eexists. reflexivity.
    - destruct l as [|x l]; [discriminate|]. cbn [skipn]. apply IHm. exact Hx. }
  destruct (E 44 (head f) H) as (x & r & Er). rewrite Er. reflexivity.
Qed.
Section Files.
  Variable transform : header -> list Z -> res (list (list Z)).
  (** one fragment that is not the last *)
  Lemma fragment_step fuel label done f rest first acc kind : List.length label = LABEL_SIZE -> well_formed f -> method f kind -> is_last f false ->
    let file := label ++ done ++ frag_bytes f ++ rest in
    fragments transform (S fuel) file (List.length done) first acc [] =
    fragments transform fuel file (List.length (done ++ frag_bytes f)) (Some (match first with None => parse_header (head f) | Some h => h end)) (acc ++ content f) [].
  Proof.
    intros Ll W (c & Ec & Ex & Ep) (st & Es & El) file. destruct (frag_len f W) as [Lf Pf]. destruct W as (Lh & _).
    cbn [fragments]. assert (Rh : read_at file (List.length done + LABEL_SIZE) HEADER_SIZE = head f).
    { unfold file, frag_bytes. rewrite <- Ll. replace (List.length done + List.length label) with (List.length (label ++ done)) by (rewrite app_length; lia).
      rewrite (app_assoc label done), <- !app_assoc. rewrite (app_assoc label done). now apply read_skip. }
    rewrite Rh, Lh. cbn [Nat.ltb]. change (62 <? HEADER_SIZE) with false. cbv iota. rewrite Lf. rewrite (proj2 (Nat.eqb_neq _ 0)) by lia.
    rewrite (comp0 f c Ec), Ex, Ep. cbn [negb Z.eqb andb]. change (0 =? 0)%Z with true. cbn [negb andb].
    assert (Rc : read_at file (List.length done + LABEL_SIZE + HEADER_SIZE) (List.length (content f)) = content f).
    { unfold file, frag_bytes. rewrite <- Ll. replace (List.length done + List.length label + HEADER_SIZE) with (List.length (label ++ done ++ head f)) by (rewrite !app_length, Lh; unfold HEADER_SIZE; lia).
      replace (label ++ done ++ (head f ++ content f ++ [check f]) ++ rest) with ((label ++ done ++ head f) ++ content f ++ [check f] ++ rest) by (now rewrite <- !app_assoc). now apply read_skip. }
    rewrite Rc. cbv zeta. replace (status (parse_header (head f))) with st by (symmetry; unfold parse_header; cbn [status]; now apply byte_at_error). rewrite El.
    f_equal. unfold frag_bytes. rewrite !app_length, Lh. cbn [List.length]. unfold HEADER_SIZE. lia.
  Qed.
  (** the last one *)
  Lemma fragment_last fuel label done f rest first acc kind : List.length label = LABEL_SIZE -> well_formed f -> method f kind -> is_last f true ->
    fragments transform (S fuel) (label ++ done ++ frag_bytes f ++ rest) (List.length done) first acc [] = make_pred_image (parse_header (head f)) (acc ++ content f).
  Proof.
    intros Ll W (c & Ec & Ex & Ep) (st & Es & El). set (file := label ++ done ++ frag_bytes f ++ rest). destruct (frag_len f W) as [Lf Pf]. destruct W as (Lh & _).
    cbn [fragments]. assert (Rh : read_at file (List.length done + LABEL_SIZE) HEADER_SIZE = head f).
    { unfold file, frag_bytes. rewrite <- Ll. replace (List.length done + List.length label) with (List.length (label ++ done)) by (rewrite app_length; lia).
      rewrite (app_assoc label done), <- !app_assoc. rewrite (app_assoc label done). now apply read_skip. }
    rewrite Rh, Lh. change (62 <? HEADER_SIZE) with false. cbv iota. rewrite Lf. rewrite (proj2 (Nat.eqb_neq _ 0)) by lia.
    rewrite (comp0 f c Ec), Ex, Ep. change (0 =? 0)%Z with true. cbn [negb andb].
    assert (Rc : read_at file (List.length done + LABEL_SIZE + HEADER_SIZE) (List.length (content f)) = content f).
    { unfold file, frag_bytes. rewrite <- Ll. replace (List.length done + List.length label + HEADER_SIZE) with (List.length (label ++ done ++ head f)) by (rewrite !app_length, Lh; unfold HEADER_SIZE; lia).
      replace (label ++ done ++ (head f ++ content f ++ [check f]) ++ rest) with ((label ++ done ++ head f) ++ content f ++ [check f] ++ rest) by (now rewrite <- !app_assoc). now apply read_skip. }
    rewrite Rc. cbv zeta. replace (status (parse_header (head f))) with st by (symmetry; unfold parse_header; cbn [status]; now apply byte_at_error). now rewrite El.
  Qed.
  (** no further fragment *)
  Lemma fragment_none fuel label done tail f acc : List.length label = LABEL_SIZE -> List.length tail < HEADER_SIZE ->
    fragments transform (S fuel) (label ++ done ++ tail) (List.length done) (Some f) acc [] = finish f acc [].
  Proof.
    intros Ll Lt. cbn [fragments]. unfold read_at. rewrite <- Ll.
    replace (List.length done + List.length label) with (List.length (label ++ done)) by (rewrite app_length; lia). rewrite (app_assoc label).
    rewrite skipn_app, Nat.sub_diag, skipn_all. cbn [skipn app]. rewrite firstn_length. now rewrite (proj2 (Nat.ltb_lt _ _)) by lia.
  Qed.
End Files.
Lemma size_ok f height width : well_formed f -> image_size f height width -> down_total (parse_header (head f)) * 16 = height /\ edit_length (parse_header (head f)) * 16 = width.
Proof.
  intros (_ & _ & Fh & _) (h & w & A & B & Eh & Ew). unfold parse_header; cbn [down_total edit_length]. split.
  - pose proof (short_ok h _ 40 A ltac:(pose proof (le16_bytes _ _ _ Fh A); lia)). lia.
  - rewrite (byte_at_error _ _ _ B). apply nth_error_In in B. rewrite Forall_forall in Fh. apply Fh in B. unfold is_byte in B. lia.
Qed.
Lemma image_ok f height width k kind rows data : well_formed f -> method f kind -> code_table f k -> k < 8 -> image_size f height width -> 0 < width -> 0 < height ->
  image_coded k kind rows data -> List.length rows = height -> Forall (fun r => List.length r = width) rows ->
  make_pred_image (parse_header (head f)) data = Ok rows.
Proof.
  intros W (c & Ec & _ & Ep) (c1 & Ec1 & Ek) Hk Sz Pw Ph C Lr F. destruct (size_ok f height width W Sz) as [Eh Ew].
  unfold make_pred_image. rewrite (comp1 f c1 Ec1).
  replace (Z.to_nat (Z.land c1 15)) with k. 2:{ change 15%Z with (Z.ones 4). rewrite Z.land_ones by lia. change (2 ^ 4)%Z with 16%Z. rewrite Ek. lia. }
  rewrite (table_ok k Hk). cbn [rbind]. unfold pred_decode. cbv zeta. rewrite Eh, Ew, (comp0 f c Ec), Ep.
  change (match kind with NoPrediction => 0 | FromLeft => 1 | FromAbove => 2 end)%Z with (method_code kind). rewrite <- Lr.
  rewrite (image_all k kind rows data width _ C Hk Pw); [|destruct Sz as (h & w & _ & _ & _ & E); apply Nat.even_spec; exists (8 * (edit_length (parse_header (head f)))); lia|exact F].
  cbn [rbind]. destruct rows as [|row rows]; [cbn in Lr; lia|]. inversion F as [|? ? Fr _]; subst. cbn [concat]. rewrite app_length. rewrite (proj2 (Nat.eqb_neq _ 0)) by lia. reflexivity.
Qed.
