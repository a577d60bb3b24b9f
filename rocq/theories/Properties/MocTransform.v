(** Properties C42 (MGS MOC part) and C60: the bit reader, and images compressed with the
    cosine transform. *)
From Coq Require Import ZArith Lia FinFun.
From Verif.Base Require Import Py.
From Verif.Model Require Import MocTables Moc MocTransform.
From Verif.Properties Require Import Moc.
From Verif.Spec Require Import MocTransform Moc.
From Verif.Proofs Require Import Moc MocTransform.
Open Scope nat_scope.

(** * C42: the reader of bits *)
(** a program that reads numbers of the given sizes one after the other *)
Fixpoint read_all (sizes : list nat) (data : list Z) (r : reader) : res (list Z) :=
  match sizes with
  | [] => Ok []
  | n :: sizes => do v <- read_bits n data r; do vs <- read_all sizes data (snd v); Ok (fst v :: vs)
  end.
(** As long as the data last, numbers of any sizes up to 24 bits are the numbers that stand
    there: no bit is lost, read twice or out of order. *)
Theorem C42_moc_reads sizes data : Forall is_byte data -> Forall (fun n => n <= 24) sizes -> list_sum sizes <= 8 * List.length data ->
  read_all sizes data (new_reader data) = Ok (map number (cut sizes (bits_of data))).
Proof.
  intros F Fs. rewrite <- bits_of_len. assert (R : reads data (new_reader data) (bits_of data)) by constructor.
  revert R. generalize (new_reader data) (bits_of data). induction Fs as [|n sizes N Fs IH]; intros r bs R L; [reflexivity|]. change (list_sum (n :: sizes)) with (n + list_sum sizes) in L.
  destruct (read_ok n data r bs F N ltac:(lia) R) as (r' & E & R'). cbn [read_all cut map]. rewrite E. cbn [rbind fst snd].
  rewrite (IH r' (skipn n bs) R') by (rewrite skipn_length; lia). reflexivity.
Qed.
Print Assumptions C42_moc_reads.
(** What is read is a number of that many bits. *)
Theorem C42_moc_range n data r v r' : n <= 24 -> read_bits n data r = Ok (v, r') -> (0 <= v < 2 ^ Z.of_nat n)%Z.
Proof.
  intros N. unfold read_bits. destruct (24 <? n); [discriminate|]. destruct (if count r <? n then _ else _) as [r1|e]; cbn [rbind]; [|discriminate].
  rewrite mask by exact N. intros E. injection E as <- _. rewrite Z.land_ones by lia. apply Z.mod_pos_bound. apply Z.pow_pos_nonneg; lia.
Qed.
Print Assumptions C42_moc_range.
(** Numbers of more than 24 bits are refused, and so is a first number that is longer than
    the data. *)
Theorem C42_moc_too_many n data r : 24 < n -> read_bits n data r = Err ValueError.
Proof. intros L. unfold read_bits. now rewrite (proj2 (Nat.ltb_lt 24 n)) by exact L. Qed.
Print Assumptions C42_moc_too_many.
Theorem C42_moc_short n data : 8 * List.length data < n -> read_bits n data (new_reader data) = Err ValueError.
Proof.
  intros L. destruct (Nat.le_gt_cases n 24) as [N|N]; [|now apply C42_moc_too_many]. unfold read_bits. rewrite (proj2 (Nat.ltb_ge 24 n)) by exact N.
  cbn [count new_reader]. rewrite (proj2 (Nat.ltb_lt 0 n)) by lia.
  destruct data as [|a [|b [|c data]]]; cbn [List.length] in L; cbn [refill new_reader count pos queue Nat.ltb Nat.leb Nat.eqb List.length Nat.add]; rewrite ?(proj2 (Nat.leb_gt n 0)), ?(proj2 (Nat.leb_gt n 8)), ?(proj2 (Nat.leb_gt n 16)) by lia; try reflexivity. lia.
Qed.
Print Assumptions C42_moc_short.
(** Beyond the end the reader does not always stop: for all data whose length is not a
    multiple of 3, it starts over, again and again. *)
Inductive turning (data : list Z) : reader -> nat -> Prop :=
| turning_on j bytes p : p = j + List.length bytes -> Nat.modulo p 3 = 0 -> p <= List.length data -> bytes = firstn (List.length bytes) (skipn j data) ->
    turning data (mkRd (number (bits_of bytes)) (8 * List.length bytes) p) j
| turning_over j bytes : j + List.length bytes = List.length data -> bytes <> [] -> bytes = firstn (List.length bytes) (skipn j data) ->
    turning data (mkRd (number (bits_of bytes)) (8 * List.length bytes) 0) j.
Lemma take_byte b bytes p data : is_byte b -> Forall is_byte bytes ->
  read_bits 8 data (mkRd (number (bits_of (b :: bytes))) (8 * List.length (b :: bytes)) p) = Ok (b, mkRd (number (bits_of bytes)) (8 * List.length bytes) p).
Proof.
  intros B F. unfold read_bits. change (24 <? 8) with false. cbv iota. cbn [count]. rewrite (proj2 (Nat.ltb_ge (8 * List.length (b :: bytes)) 8)) by (cbn [List.length]; lia). cbn [rbind].
  rewrite <- (bits_of_len (b :: bytes)). rewrite take_queue by (rewrite ?bits_of_len; cbn [List.length]; lia).
  change (bits_of (b :: bytes)) with (byte_bits b ++ bits_of bytes). rewrite firstn_front, skipn_front by (rewrite byte_bits_len; lia).
  rewrite firstn_all2, skipn_all2 by (rewrite byte_bits_len; lia). cbn [app]. rewrite byte_low, number_low by (change (2 ^ Z.of_nat 8)%Z with 256%Z; exact B). now rewrite bits_of_len.
Qed.
Lemma fill_bytes data j bytes : Forall is_byte data -> j + List.length bytes < List.length data ->
  Z.lor (number (bits_of bytes)) (Z.shiftl (byte_at data (j + List.length bytes)) (Z.of_nat (8 * List.length bytes))) = number (bits_of (bytes ++ [byte_at data (j + List.length bytes)])).
Proof.
  intros F L. rewrite <- (bits_of_len bytes). rewrite queue_more by assumption. unfold bits_of. rewrite flat_map_app. cbn [flat_map]. now rewrite app_nil_r.
Qed.
Lemma refill_take fuel n data q c p : c < 24 -> p <> List.length data ->
  refill (S fuel) n data (mkRd q c p) = refill fuel n data (mkRd (Z.lor q (Z.shiftl (byte_at data p) (Z.of_nat c))) (c + 8) (p + 1)).
Proof. intros L N. cbn [refill count pos queue]. rewrite (proj2 (Nat.ltb_lt c 24)), (proj2 (Nat.eqb_neq p _)) by assumption. now replace (p + 1) with (S p) by lia. Qed.
Lemma refill_end fuel n data q c : n <= c -> c < 24 -> refill (S fuel) n data (mkRd q c (List.length data)) = Ok (mkRd q c 0).
Proof. intros L N. cbn [refill count pos queue]. now rewrite (proj2 (Nat.ltb_lt c 24)), Nat.eqb_refl, (proj2 (Nat.leb_le n c)) by assumption. Qed.
Lemma refill_full fuel n data q c p : 24 <= c -> refill fuel n data (mkRd q c p) = Ok (mkRd q c p).
Proof. intros L. destruct fuel; cbn [refill count pos queue]; now rewrite (proj2 (Nat.ltb_ge c 24)) by assumption. Qed.
Lemma turn data r j : Forall is_byte data -> Nat.modulo (List.length data) 3 <> 0 -> j < List.length data -> turning data r j ->
  exists r', read_bits 8 data r = Ok (byte_at data j, r') /\ turning data r' ((j + 1) mod List.length data).
Proof.
  intros F N3 Lj T. assert (Sk : skipn j data = byte_at data j :: skipn (S j) data) by (now apply skipn_cons).
  assert (Next : forall b bytes p, b :: bytes = firstn (List.length (b :: bytes)) (skipn j data) ->
     (p = j + List.length (b :: bytes) /\ Nat.modulo p 3 = 0 /\ p <= List.length data \/ p = 0 /\ j + List.length (b :: bytes) = List.length data) ->
     exists r', read_bits 8 data (mkRd (number (bits_of (b :: bytes))) (8 * List.length (b :: bytes)) p) = Ok (byte_at data j, r') /\ turning data r' ((j + 1) mod List.length data)).
  { intros b bytes p Eb C. rewrite Sk in Eb. cbn [List.length firstn] in Eb. injection Eb as Eb Ebs.
    assert (Fb : Forall is_byte (b :: bytes)).
    { constructor; [rewrite Eb; rewrite Forall_forall in F; apply F; unfold byte_at; now apply nth_In|]. apply Forall_forall. intros x I. rewrite Ebs in I. rewrite Forall_forall in F. apply F.
      rewrite <- (firstn_skipn (S j) data). apply in_or_app. right. rewrite <- (firstn_skipn (List.length bytes) (skipn (S j) data)). apply in_or_app. now left. }
    inversion Fb as [|? ? Hb Hbs]; subst x l. eexists. split; [rewrite take_byte by assumption; now rewrite Eb|].
    destruct (Nat.eq_dec (j + 1) (List.length data)) as [E|E].
    - rewrite E, Nat.mod_same by lia. destruct C as [(C1 & C2 & C3)|(-> & C2)]; cbn [List.length] in *.
      + exfalso. assert (p = List.length data) by lia. congruence.
      + assert (bytes = []) as -> by (destruct bytes; [reflexivity|cbn in C2; lia]). apply turning_on; (reflexivity || lia).
    - rewrite Nat.mod_small by lia. replace (j + 1) with (S j) by lia. destruct C as [(C1 & C2 & C3)|(-> & C2)]; cbn [List.length] in *.
      + apply turning_on; try assumption. lia.
      + apply turning_over; [lia| |assumption]. intros ->. cbn in C2. lia. }
  destruct T as [j bytes p Ep E3 Lp Eb|j bytes El Nb Eb].
  - destruct bytes as [|b bytes]; [|apply Next; [exact Eb|left; auto]]. cbn [List.length] in *. rewrite Nat.add_0_r in Ep. subst p.
    assert (Ref : exists b bytes p, refill 4 8 data (mkRd 0 0 j) = Ok (mkRd (number (bits_of (b :: bytes))) (8 * List.length (b :: bytes)) p) /\ b :: bytes = firstn (List.length (b :: bytes)) (skipn j data) /\
      (p = j + List.length (b :: bytes) /\ Nat.modulo p 3 = 0 /\ p <= List.length data \/ p = 0 /\ j + List.length (b :: bytes) = List.length data)).
    { pose proof (fill_bytes data j [] F) as A0. pose proof (fill_bytes data j [byte_at data j] F) as A1. pose proof (fill_bytes data j [byte_at data j; byte_at data (j + 1)] F) as A2. cbn [List.length app] in A0, A1, A2. rewrite Nat.add_0_r in A0.
      rewrite (refill_take 3 8 data 0 0 j) by lia.
      change (Z.lor 0) with (Z.lor (number (bits_of []))). change (Z.of_nat 0) with (Z.of_nat (8 * 0)). rewrite A0 by lia.
      destruct (Nat.eq_dec (j + 1) (List.length data)) as [E1|E1].
      - rewrite E1, refill_end by lia. exists (byte_at data j), [], 0. split; [reflexivity|]. split; [rewrite Sk; reflexivity|]. right. split; [reflexivity|cbn; lia].
      - rewrite refill_take by lia. change (Z.of_nat (0 + 8)) with (Z.of_nat (8 * 1)). rewrite A1 by lia. replace (j + 1 + 1) with (j + 2) by lia.
        assert (Sk1 : skipn (S j) data = byte_at data (j + 1) :: skipn (j + 2) data) by (replace (S j) with (j + 1) by lia; replace (j + 2) with (S (j + 1)) by lia; apply skipn_cons; lia).
        destruct (Nat.eq_dec (j + 2) (List.length data)) as [E2|E2].
        + rewrite E2, refill_end by lia. exists (byte_at data j), [byte_at data (j + 1)], 0. split; [reflexivity|]. split; [rewrite Sk; cbn [firstn List.length]; rewrite Sk1; reflexivity|]. right. split; [reflexivity|cbn; lia].
        + rewrite refill_take by lia. change (Z.of_nat (0 + 8 + 8)) with (Z.of_nat (8 * 2)). rewrite A2 by lia. replace (j + 2 + 1) with (j + 3) by lia. rewrite refill_full by lia.
          assert (Sk2 : skipn (j + 2) data = byte_at data (j + 2) :: skipn (j + 3) data) by (replace (j + 3) with (S (j + 2)) by lia; apply skipn_cons; lia).
          exists (byte_at data j), [byte_at data (j + 1); byte_at data (j + 2)], (j + 3). split; [reflexivity|]. split; [rewrite Sk; cbn [firstn List.length]; rewrite Sk1; cbn [firstn List.length]; rewrite Sk2; reflexivity|].
          left. split; [reflexivity|]. split; [|lia]. now rewrite <- Nat.add_mod_idemp_r, Nat.add_0_r by lia. }
    destruct Ref as (b & bytes & p & Er & Eb' & C). destruct (Next b bytes p Eb' C) as (r' & E & T). exists r'. split; [|exact T]. rewrite <- E.
    unfold read_bits. change (24 <? 8) with false. cbv iota. cbn [count]. change (8 * 0 <? 8) with true. cbv iota. change (mkRd (number (bits_of [])) (8 * 0) j) with (mkRd 0 0 j). rewrite Er.
    change (S (List.length bytes)) with (List.length (b :: bytes)). set (c := 8 * List.length (b :: bytes)). assert (Hc : 8 <= c) by (unfold c; cbn [List.length]; lia). clearbody c. now rewrite (proj2 (Nat.ltb_ge c 8)) by exact Hc.
  - destruct bytes as [|b bytes]; [congruence|]. apply Next; [exact Eb|right; auto].
Qed.
Theorem C42_moc_past_end_refuted data n : Forall is_byte data -> Nat.modulo (List.length data) 3 <> 0 ->
  read_all (repeat 8 n) data (new_reader data) = Ok (map (fun i => byte_at data (i mod List.length data)) (seq 0 n)).
Proof.
  intros F N3. destruct data as [|b data]; [now contradiction N3|]. set (all := b :: data) in *.
  assert (G : forall n j r, j < List.length all -> turning all r j -> read_all (repeat 8 n) all r = Ok (map (fun i => byte_at all (i mod List.length all)) (seq j n))).
  { clear n. assert (G : forall n i r, turning all r (i mod List.length all) -> read_all (repeat 8 n) all r = Ok (map (fun i => byte_at all (i mod List.length all)) (seq i n))).
    { induction n as [|n IH]; intros i r T; [reflexivity|]. cbn [repeat read_all seq map]. destruct (turn all r (i mod List.length all) F N3 ltac:(apply Nat.mod_upper_bound; cbn; lia) T) as (r' & E & T'). rewrite E. cbn [rbind fst snd].
      rewrite Nat.add_mod_idemp_l in T' by (cbn; lia). rewrite (IH (S i) r'); [reflexivity|]. replace (S i) with (i + 1) by lia. exact T'. }
    intros n j r Lj T. apply G. now rewrite Nat.mod_small. }
  assert (E : forall n, read_all (repeat 8 n) all (new_reader all) = read_all (repeat 8 n) all (mkRd 0 0 0)).
  { intros [|k]; [reflexivity|]. cbn [repeat read_all]. f_equal. unfold read_bits. change (24 <? 8) with false. cbv iota. unfold new_reader, all at 1 3. cbn [count Nat.ltb Nat.leb]. f_equal.
    unfold all. cbn [refill count pos queue Nat.ltb Nat.leb Nat.eqb List.length]. change (byte_at (b :: data) 0) with b. change (Z.of_nat 0) with 0%Z. now rewrite Z.shiftl_0_r, Z.lor_diag, Z.lor_0_l. }
  rewrite E. apply G; [cbn; lia|]. change (mkRd 0 0 0) with (mkRd (number (bits_of [])) (8 * List.length (@nil Z)) 0). now apply turning_on; cbn; try lia.
Qed.
Print Assumptions C42_moc_past_end_refuted.
Example C42_moc_meets : Forall is_byte [181; 7]%Z /\ read_all [3; 9; 0; 4] [181; 7]%Z (new_reader [181; 7]%Z) = Ok [5; 246; 0; 0]%Z /\
  map number (cut [3; 9; 0; 4] (bits_of [181; 7]%Z)) = [5; 246; 0; 0]%Z /\
  read_all (repeat 8 5) [181; 7]%Z (new_reader [181; 7]%Z) = Ok [181; 7; 181; 7; 181]%Z.
Proof. split; [repeat constructor; lia|]. repeat split. Qed.

(** * C60: images compressed with the cosine transform.  The transform back is any function
    [inverse] of 256 coefficients *)
(** Every coefficient of 16 bits has a code in every table; it is read back, and nothing
    beyond it is used up. *)
Theorem C60_coefficients which tables c : which < 8 -> encode_trees = Ok tables -> (-32768 <= c < 32768)%Z ->
  exists tree, nth_error tables which = Some tree /\ (exists bs, coef_coded which c bs) /\
  forall bs data r rest, coef_coded which c bs -> Forall is_byte data -> reads data r (bs ++ rest) ->
    exists r', read_coef tree data r = Ok (c, r') /\ reads data r' rest.
Proof.
  intros W Et C. rewrite encode_trees_ok in Et. injection Et as <-. exists (tree which). split; [now apply nth_tree|]. split.
  - destruct (Z.lt_ge_cases c 0); eexists; [apply coded_negative|apply coded_positive]; lia.
  - intros bs data r rest Cb F R. destruct (coef_ok which c bs data r rest W F Cb R) as (r' & E & R' & _). now exists r'.
Qed.
Print Assumptions C60_coefficients.
(** No code word of a table begins another one. *)
Theorem C60_prefix_free which m n : which < 8 -> m < table_size which -> n < table_size which -> prefix_of (coef_word which m) (coef_word which n) -> m = n.
Proof.
  intros W M N [r E]. pose proof (word_path which m W M) as Pm. pose proof (word_path which n W N) as Pn. rewrite E in Pn. apply (path_more _ _ _ _ r) in Pm. rewrite Pm in Pn.
  assert (L : leaf_value (table_size which) m = leaf_value (table_size which) n) by congruence. clear Pm Pn E. pose proof (size_bounds which W) as B.
  unfold leaf_value, LARGE_NEGATIVE, LARGE_POSITIVE in L. set (s := table_size which) in *. clearbody s.
  assert (D : (Z.of_nat s / 2 = Z.of_nat (s / 2))%Z) by (now rewrite Nat2Z.inj_div). rewrite D in L.
  assert (s / 2 <= s) by (apply Nat.div_le_upper_bound; lia).
  destruct (Nat.eqb_spec m 0), (Nat.eqb_spec n 0), (Nat.eqb_spec m (s - 1)), (Nat.eqb_spec n (s - 1)); try lia.
Qed.
Print Assumptions C60_prefix_free.
(** The order of coefficients: each of the 256 is used once. *)
Theorem C60_order : List.length trans = Z.to_nat 256 /\ NoDup trans /\ forall t, (0 <= t < 256)%Z <-> In t trans.
Proof.
  assert (L : List.length trans = Z.to_nat 256) by (vm_compute; reflexivity). split; [exact L|].
  assert (A : forall t, (0 <= t < 256)%Z -> In t trans).
  { assert (E : forallb (fun n => existsb (Z.eqb (Z.of_nat n)) trans) (seq 0 256) = true) by (vm_compute; reflexivity). intros t B. rewrite forallb_forall in E.
    specialize (E (Z.to_nat t) ltac:(apply in_seq; lia)). apply existsb_exists in E as (x & I & E). apply Z.eqb_eq in E. rewrite Z2Nat.id in E by lia. now subst x. }
  assert (I : incl (map Z.of_nat (seq 0 256)) trans). { intros t I. apply in_map_iff in I as (n & <- & I). apply in_seq in I. apply A. lia. }
  assert (ND : NoDup (map Z.of_nat (seq 0 256))). { apply Injective_map_NoDup; [intros x y E; lia|apply seq_NoDup]. }
  split.
  - apply (NoDup_incl_NoDup (l := map Z.of_nat (seq 0 256))); [exact ND|rewrite L, map_length, seq_length; lia|exact I].
  - intros t. split; [apply A|]. intros It. pose proof trans_ok as T. rewrite forallb_forall in T. specialize (T t It). lia.
Qed.
Print Assumptions C60_order.
(** A coded fragment gives its picture: block by block, down the columns of blocks, in the
    order of groups, each pixel from the coefficients of its own block only. *)
Theorem C60_fragment inverse across t : transform_coded across t ->
  decompress_transform_image inverse (parse_header (head (in_file t))) (content (in_file t)) =
  Ok (picture_of inverse (levels_of t) (blocks_of t) (spacing_of t) across (down t)).
Proof.
  intros ((Lh & _ & Fh & Fc & _) & (c & Ec & Ex & Ep) & (e & Ee & El) & Sp & Dn & Ac & Lb & stream & pad & C & Es).
  assert (Comp : forall i x, i < 8 -> nth_error (head (in_file t)) (44 + i) = Some x -> byte_at (compression (parse_header (head (in_file t)))) i = x).
  { intros i x Li Ei. unfold parse_header. cbn [compression]. unfold byte_at. rewrite <- (firstn_skipn 44 (head (in_file t))) in Ei. rewrite nth_error_app2 in Ei by (rewrite firstn_length, Lh; lia).
    replace (44 + i - List.length (firstn 44 (head (in_file t)))) with i in Ei by (rewrite firstn_length, Lh; lia). apply nth_error_nth with (d := 0%Z) in Ei.
    rewrite <- (firstn_skipn 8 (skipn 44 (head (in_file t)))) in Ei. rewrite app_nth1 in Ei by (rewrite firstn_length, skipn_length, Lh; lia). exact Ei. }
  pose proof (le16_bytes _ _ _ Fh Sp) as Bs. destruct Sp as [S0 S1].
  unfold decompress_transform_image. cbv zeta. rewrite (Comp 0 c), (Comp 1 e), (Comp 4 (spacing_of t mod 256)%Z), (Comp 5 (spacing_of t / 256)%Z) by (assumption || lia). rewrite Ex. change (2 - 1)%Z with 1%Z.
  assert (Hs : Z.lor (spacing_of t mod 256) (Z.shiftl (spacing_of t / 256) 8) = spacing_of t).
  { change 8%Z with (Z.of_nat 8). rewrite lor_shift by (change (2 ^ Z.of_nat 8)%Z with 256%Z; (lia || apply Z.mod_pos_bound; lia)). change (2 ^ Z.of_nat 8)%Z with 256%Z. pose proof (Z.div_mod (spacing_of t) 256 ltac:(lia)). lia. }
  rewrite Hs. rewrite Z.shiftr_div_pow2 by lia. change (2 ^ 5)%Z with 32%Z. rewrite El, Nat2Z.id.
  assert (Ea : edit_length (parse_header (head (in_file t))) = across).
  { unfold parse_header. cbn [edit_length]. rewrite (byte_at_error _ _ _ Ac). apply Nat2Z.id. }
  assert (Ed : down_length (parse_header (head (in_file t))) = down t).
  { unfold parse_header. cbn [down_length]. pose proof (short_ok _ _ _ Dn ltac:(lia)). lia. }
  rewrite Ea, Ed. now apply fragment_ok with (stream := stream) (pad := pad).
Qed.
Print Assumptions C60_fragment.
(** A file of such fragments gives their pictures, one below the other. *)
Lemma transform_step transform fuel label done f rest first acc images pic : List.length label = LABEL_SIZE -> well_formed f ->
  (exists c, nth_error (head f) 44 = Some c /\ (Z.land (Z.shiftr c 2) 3 = 2)%Z /\ (Z.land c 3 <> 1)%Z) -> transform (parse_header (head f)) (content f) = Ok pic ->
  let file := label ++ done ++ frag_bytes f ++ rest in
  fragments transform (S fuel) file (List.length done) first acc images =
  fragments transform fuel file (List.length (done ++ frag_bytes f)) (Some (match first with None => parse_header (head f) | Some h => h end)) acc (images ++ [pic]).
Proof.
  intros Ll W (c & Ec & Ex & Ep) T file. destruct (frag_len f W) as [Lf Pf]. destruct W as (Lh & _).
  cbn [fragments]. assert (Rh : read_at file (List.length done + LABEL_SIZE) HEADER_SIZE = head f).
  { unfold file, frag_bytes. rewrite <- Ll. replace (List.length done + List.length label) with (List.length (label ++ done)) by (rewrite app_length; lia).
    rewrite (app_assoc label done), <- !app_assoc. rewrite (app_assoc label done). now apply read_skip. }
  rewrite Rh, Lh. cbn [Nat.ltb]. change (62 <? HEADER_SIZE) with false. cbv iota. rewrite Lf. rewrite (proj2 (Nat.eqb_neq _ 0)) by lia.
  rewrite (comp0 f c Ec), Ex. rewrite (proj2 (Z.eqb_neq _ _) Ep). cbn [negb Z.eqb andb].
  assert (Rc : read_at file (List.length done + LABEL_SIZE + HEADER_SIZE) (List.length (content f)) = content f).
  { unfold file, frag_bytes. rewrite <- Ll. replace (List.length done + List.length label + HEADER_SIZE) with (List.length (label ++ done ++ head f)) by (rewrite !app_length, Lh; unfold HEADER_SIZE; lia).
    replace (label ++ done ++ (head f ++ content f ++ [check f]) ++ rest) with ((label ++ done ++ head f) ++ content f ++ [check f] ++ rest) by (now rewrite <- !app_assoc). now apply read_skip. }
  rewrite Rc. rewrite T. cbn [rbind].
  f_equal. unfold frag_bytes. rewrite !app_length, Lh. cbn [List.length]. unfold HEADER_SIZE. lia.
Qed.
Lemma nothing_left transform fuel label done tail f acc images : List.length label = LABEL_SIZE -> List.length tail < HEADER_SIZE ->
  fragments transform (S fuel) (label ++ done ++ tail) (List.length done) (Some f) acc images = finish f acc images.
Proof.
  intros Ll Lt. cbn [fragments]. replace (List.length (read_at _ _ _) <? HEADER_SIZE) with true; [reflexivity|]. symmetry. apply Nat.ltb_lt. unfold read_at. rewrite firstn_length, skipn_length, !app_length. lia.
Qed.
Theorem C60_file inverse label across frags tail : List.length label = LABEL_SIZE -> frags <> [] -> Forall (transform_coded across) frags -> List.length tail < 62 ->
  moc_loader (decompress_transform_image inverse) (file_of label (map in_file frags) ++ tail) =
  Ok (flat_map (fun t => picture_of inverse (levels_of t) (blocks_of t) (spacing_of t) across (down t)) frags).
Proof.
  intros Ll NE F Lt. unfold moc_loader. set (fuel := S _). set (pic := fun t => picture_of inverse (levels_of t) (blocks_of t) (spacing_of t) across (down t)).
  assert (Fu : List.length frags < fuel).
  { unfold fuel, file_of. rewrite !app_length. assert (G : forall l, List.length l <= List.length (flat_map (fun f => head f ++ content f ++ [check f]) l)).
    { induction l as [|f l IHl]; [reflexivity|]. cbn [flat_map]. rewrite !app_length. cbn [List.length]. lia. } specialize (G (map in_file frags)). rewrite map_length in G. lia. }
  clearbody fuel.
  assert (Fin : forall h, (Z.land (Z.shiftr (byte_at (compression h) 0) 2) 3 = 2)%Z -> finish h [] (map pic frags) = Ok (flat_map pic frags)).
  { intros h Eh. unfold finish. rewrite Eh. change (2 =? 0)%Z with false. cbv iota. rewrite flat_map_concat_map.
    destruct (map pic frags) as [|p ps] eqn:Em; [destruct frags; [congruence|discriminate]|]. rewrite <- Em. cbv zeta.
    assert (W : forall row, In row (concat (map pic frags)) -> List.length row = 16 * across).
    { intros row I. apply in_concat in I as (l & I & Ir). apply in_map_iff in I as (t & <- & _). unfold pic, picture_of in Ir. apply in_map_iff in Ir as (y & <- & _). now rewrite map_length, seq_length. }
    replace (forallb _ _) with true; [reflexivity|]. symmetry. apply forallb_forall. intros row I. apply Nat.eqb_eq. rewrite (W row I).
    destruct (concat (map pic frags)) as [|r0 rs]; [contradiction|]. cbn [hd]. symmetry. apply W. now left. }
  enough (G : forall l done h images fuel, List.length l < fuel -> Forall (transform_coded across) l ->
    fragments (decompress_transform_image inverse) fuel (label ++ done ++ flat_map frag_bytes (map in_file l) ++ tail) (List.length done) (Some h) [] images = finish h [] (images ++ map pic l)).
  { unfold file_of. rewrite <- app_assoc. change (fun f => head f ++ content f ++ [check f]) with frag_bytes. destruct fuel as [|fuel]; [lia|]. destruct frags as [|t frags]; [congruence|].
    inversion F as [|? ? Ht F']; subst. cbn [map flat_map]. rewrite <- app_assoc.
    pose proof (transform_step (decompress_transform_image inverse) fuel label [] (in_file t) (flat_map frag_bytes (map in_file frags) ++ tail) None [] [] (pic t) Ll (proj1 Ht) (proj1 (proj2 Ht)) (C60_fragment inverse across t Ht)) as E.
    cbv zeta in E. cbn [app List.length] in E. rewrite E. pose proof (G frags (frag_bytes (in_file t)) (parse_header (head (in_file t))) [pic t] fuel ltac:(cbn in Fu; lia) F') as E2. rewrite E2.
    destruct Ht as (_ & (c & Ec & Ex & _) & _). specialize (Fin (parse_header (head (in_file t)))). rewrite (comp0 _ c Ec) in Fin. exact (Fin Ex). }
  clear - Ll Lt. intros l. induction l as [|t l IH]; intros done h images fuel Fu Fl; (destruct fuel as [|fuel]; [lia|]).
  - cbn [map app flat_map]. rewrite app_nil_r. now apply nothing_left.
  - inversion Fl as [|? ? Ht F']; subst. cbn [map flat_map]. rewrite <- !app_assoc.
    rewrite (transform_step _ fuel label done (in_file t) (flat_map frag_bytes (map in_file l) ++ tail) (Some h) [] images (pic t) Ll (proj1 Ht) (proj1 (proj2 Ht)) (C60_fragment inverse across t Ht)).
    replace (label ++ done ++ frag_bytes (in_file t) ++ flat_map frag_bytes (map in_file l) ++ tail) with (label ++ (done ++ frag_bytes (in_file t)) ++ flat_map frag_bytes (map in_file l) ++ tail) by (now rewrite <- !app_assoc).
    rewrite IH by (assumption || (cbn in Fu; lia)). now rewrite <- app_assoc.
Qed.
Print Assumptions C60_file.
(** Whatever the header and the data: the result is a picture of the size that the header
    gives, with pixels from 0 to 255, or [ValueError] (the groups of the blocks could not be
    read). *)
Lemma refill_any n data : forall fuel r, 24 <= count r + 8 * fuel -> (exists r', refill fuel n data r = Ok r') \/ refill fuel n data r = Err ValueError.
Proof.
  induction fuel as [|fuel IH]; intros r L; cbn [refill]; (destruct (Nat.ltb_spec (count r) 24) as [Lq|Lq]; [|left; now eexists]); [lia|].
  destruct (pos r =? _); [destruct (n <=? count r); [left; now eexists|now right]|]. apply IH. cbn [count]. lia.
Qed.
Lemma read_any n data r : (exists v r', read_bits n data r = Ok (v, r')) \/ read_bits n data r = Err ValueError.
Proof.
  unfold read_bits. destruct (24 <? n); [now right|]. destruct (count r <? n); cbn [rbind]; [|left; now do 2 eexists].
  destruct (refill_any n data 4 r ltac:(lia)) as [[r' ->]| ->]; cbn [rbind]; [left; now do 2 eexists|now right].
Qed.
Lemma read_many_any data k : forall n r, (exists l r', read_many n k data r = Ok (l, r')) \/ read_many n k data r = Err ValueError.
Proof.
  induction n as [|n IH]; intros r; [left; now do 2 eexists|]. cbn [read_many]. destruct (read_any k data r) as [(v & r' & ->)| ->]; cbn [rbind fst snd]; [|now right].
  destruct (IH r') as [(l & r'' & ->)| ->]; cbn [rbind fst snd]; [left; now do 2 eexists|now right].
Qed.
Definition shows_bytes (img : canvas) : Prop := forall r c, is_byte (img r c).
Lemma read_level_bytes inverse level transform spacing lo hi var trees data : forall blocks groups r img, shows_bytes img ->
  shows_bytes (fst (read_level inverse blocks groups level transform spacing lo hi var trees data r img)).
Proof.
  induction blocks as [|[x y] blocks IH]; intros groups r img B; [exact B|]. destruct groups as [|g groups]; [exact B|]. cbn [read_level]. destruct (g =? level)%Z; [|now apply IH].
  destruct (read_block _ _ _ _ _ _ _ _) as [[b r']|e] eqn:Eb; [|exact B]. apply IH. intros r0 c0. unfold paint. destruct (_ && _); [|apply B].
  unfold read_block in Eb. destruct (read_bits 8 data r) as [d|]; cbn [rbind] in Eb; [|discriminate]. destruct (read_bits 8 data (snd d)) as [z|]; cbn [rbind] in Eb; [|discriminate].
  destruct (read_coefs _ _ _ _ _ _ _) as [co|]; cbn [rbind] in Eb; [|discriminate]. cbv zeta in Eb. destruct (transform =? 1)%Z; [|discriminate]. injection Eb as <- _. unfold is_byte. lia.
Qed.
Lemma read_levels_bytes inverse blocks groups transform spacing trees data : forall n level r img, shows_bytes img ->
  shows_bytes (read_levels inverse n level blocks groups transform spacing trees data r img).
Proof.
  induction n as [|n IH]; intros level r img B; [exact B|]. cbn [read_levels]. destruct (existsb _ _); [|now apply IH]. destruct (level_header data r) as [[[[lo hi] var] r']|e]; [|exact B].
  pose proof (read_level_bytes inverse level transform spacing lo hi var trees data blocks groups r' img B) as B'. destruct (read_level _ _ _ _ _ _ _ _ _ _ _ _ _) as [img' [r''|e]]; cbn [fst] in B'; [now apply IH|exact B'].
Qed.
Lemma rows_of_size w h img : shows_bytes img -> List.length (rows_of w h img) = h /\ Forall (fun row => List.length row = w /\ Forall is_byte row) (rows_of w h img).
Proof.
  intros B. unfold rows_of. split; [now rewrite map_length, seq_length|]. apply Forall_forall. intros row I. apply in_map_iff in I as (y & <- & _). split; [now rewrite map_length, seq_length|].
  apply Forall_forall. intros p Ip. apply in_map_iff in Ip as (x & <- & _). apply B.
Qed.
Theorem C60_any inverse h data :
  (exists rows, decompress_transform_image inverse h data = Ok rows /\ List.length rows = down_length h * 16 /\
     Forall (fun row => List.length row = edit_length h * 16 /\ Forall is_byte row) rows) \/
  decompress_transform_image inverse h data = Err ValueError.
Proof.
  unfold decompress_transform_image. cbv zeta. unfold decompress. rewrite encode_trees_ok. cbn [rbind]. set (trees := map tree (seq 0 8)). clearbody trees.
  destruct (read_many_any data 3 (edit_length h * 16 * (down_length h * 16) / 256) (new_reader data)) as [(g & r & ->)| ->]; cbn [rbind fst snd]; [|now right]. left.
  destruct (forallb _ _); (eexists; split; [reflexivity|]); apply rows_of_size; [apply read_levels_bytes|]; intros ? ?; unfold is_byte; lia.
Qed.
Print Assumptions C60_any.
(** Loading ends. *)
Theorem C60_ends inverse file : Forall is_byte file -> moc_loader (decompress_transform_image inverse) file <> Err OutOfFuel.
Proof. intros F. apply C40_ends; [exact F|]. intros h d. destruct (C60_any inverse h d) as [(rows & -> & _)| ->]; discriminate. Qed.
Print Assumptions C60_ends.
(** Another transform (1 or 3 in the header; the instrument could also use the Walsh-Hadamard
    transform) is not an error: the picture is black, whatever was sent. *)
Lemma read_level_black inverse level transform spacing lo hi var trees data : transform <> 1%Z -> forall blocks groups r img,
  fst (read_level inverse blocks groups level transform spacing lo hi var trees data r img) = img.
Proof.
  intros N. induction blocks as [|[x y] blocks IH]; intros groups r img; [reflexivity|]. destruct groups as [|g groups]; [reflexivity|]. cbn [read_level]. destruct (g =? level)%Z; [|apply IH].
  destruct (read_block _ _ _ _ _ _ _ _) as [[b r']|e] eqn:Eb; [|reflexivity]. exfalso.
  unfold read_block in Eb. destruct (read_bits 8 data r) as [d|]; cbn [rbind] in Eb; [|discriminate]. destruct (read_bits 8 data (snd d)) as [z|]; cbn [rbind] in Eb; [|discriminate].
  destruct (read_coefs _ _ _ _ _ _ _) as [co|]; cbn [rbind] in Eb; [|discriminate]. cbv zeta in Eb. apply Z.eqb_neq in N. now rewrite N in Eb.
Qed.
Lemma read_levels_black inverse blocks groups transform spacing trees data : transform <> 1%Z -> forall n level r img,
  read_levels inverse n level blocks groups transform spacing trees data r img = img.
Proof.
  intros N. induction n as [|n IH]; intros level r img; [reflexivity|]. cbn [read_levels]. destruct (existsb _ _); [|apply IH]. destruct (level_header data r) as [[[[lo hi] var] r']|e]; [|reflexivity].
  pose proof (read_level_black inverse level transform spacing lo hi var trees data N blocks groups r' img) as B'. destruct (read_level _ _ _ _ _ _ _ _ _ _ _ _ _) as [img' [r''|e]]; cbn [fst] in B'; subst img'; [apply IH|reflexivity].
Qed.
Theorem C60_other_transform_refuted inverse h data rows : (Z.land (Z.shiftr (byte_at (compression h) 0) 2) 3 <> 2)%Z ->
  decompress_transform_image inverse h data = Ok rows -> rows = repeat (repeat 0%Z (edit_length h * 16)) (down_length h * 16).
Proof.
  intros N. unfold decompress_transform_image. cbv zeta. unfold decompress. rewrite encode_trees_ok. cbn [rbind]. set (trees := map tree (seq 0 8)). clearbody trees.
  destruct (read_many _ _ _ _) as [[g r]|]; cbn [rbind fst snd]; [|discriminate].
  assert (B : forall w h', rows_of w h' (fun _ _ => 0%Z) = repeat (repeat 0%Z w) h').
  { intros w h'. unfold rows_of. assert (G : forall {A B} (b : B) (l : list A), map (fun _ => b) l = repeat b (List.length l)) by (induction l; [reflexivity|cbn; congruence]). now rewrite !G, !seq_length. }
  rewrite read_levels_black by lia. intros E. rewrite B in E. destruct (forallb _ _) in E; injection E as <-; reflexivity.
Qed.
Print Assumptions C60_other_transform_refuted.
(** Every collection of blocks has a code: any groups, any means, any coefficients of 16 bits
    as far as the last one that is not 0. *)
Lemma coefs_codable tables cs : Forall (fun t => t < 8) tables -> List.length cs <= List.length tables -> Forall (fun c => -32768 <= c < 32768)%Z cs -> exists bs, coefs_coded tables cs bs.
Proof.
  revert tables. induction cs as [|c cs IH]; intros tables Ft L F; [eexists; constructor|]. destruct tables as [|t tables]; [cbn in L; lia|]. inversion Ft; subst. inversion F as [|? ? Hc F']; subst.
  destruct (IH tables) as [bs' B']; [assumption|cbn in L; lia|assumption|]. destruct (Z.lt_ge_cases c 0); eexists; (apply coefs_cons; [|exact B']); [apply coded_negative|apply coded_positive]; lia.
Qed.
Definition block_fits (b : tblock) : Prop := (0 <= dc b < 256)%Z /\ List.length (coefs b) <= 255 /\ Forall (fun c => -32768 <= c < 32768)%Z (coefs b).
Lemma blocks_codable l blocks : well_made l -> Forall block_fits blocks -> exists bs, blocks_coded l blocks bs.
Proof.
  intros (_ & _ & Lt & Ft) F. induction F as [|b blocks (D & Lc & Fc) F IH]; [eexists; constructor|]. destruct IH as [bs' B'].
  destruct (coefs_codable (table_of l) (coefs b) Ft ltac:(lia) Fc) as [bs B]. eexists. now constructor; eassumption.
Qed.
Theorem C60_every levels blocks : List.length levels <= 8 -> Forall well_made levels -> Forall (fun b => group b < List.length levels) blocks -> Forall block_fits blocks ->
  exists stream pad data, fragment_coded levels blocks stream /\ Forall is_byte data /\ bits_of data = stream ++ pad.
Proof.
  intros L8 Fl Fg Fb.
  assert (G : forall levels k, Forall well_made levels -> exists rest, levels_coded blocks k levels rest).
  { clear L8 Fl Fg levels. induction levels as [|l levels IH]; intros k Fl; [eexists; constructor|]. inversion Fl as [|? ? Hl Fl']; subst. destruct (IH (S k) Fl') as [rest R].
    destruct (existsb (fun b => group b =? k) blocks) eqn:E.
    - apply existsb_exists in E as (b & I & E). apply Nat.eqb_eq in E. destruct (blocks_codable l (filter (fun b => group b =? k) blocks) Hl) as [bs B].
      { apply Forall_forall. intros x Ix. apply filter_In in Ix as [Ix _]. rewrite Forall_forall in Fb. now apply Fb. }
      eexists. apply levels_cons; [now exists b|exact Hl|exact B|exact R].
    - exists rest. apply levels_absent; [|exact R]. intros b I Eb. assert (X : existsb (fun b => group b =? k) blocks = true) by (apply existsb_exists; exists b; split; [exact I|now apply Nat.eqb_eq]). congruence. }
  destruct (G levels 0 Fl) as [rest R]. destruct (pack_even (flat_map (fun b => low_bits 3 (Z.of_nat (group b))) blocks ++ rest)) as (data & pad & Fd & E & _).
  exists (flat_map (fun b => low_bits 3 (Z.of_nat (group b))) blocks ++ rest), pad, data. split; [|now split]. split; [exact L8|]. split; [exact Fg|]. now exists rest.
Qed.
Print Assumptions C60_every.
(** A case of [C60_file]: one fragment, two blocks one below the other, in groups 1 and 0. *)
Definition demo_level (lo hi : Z) : level := mkLevel lo hi (repeat 2 255).
Definition demo_blocks : list tblock := [mkBlock 1 200 [3; -1000; 0; 500]%Z; mkBlock 0 77 []].
Definition demo_level_bits (lo hi : Z) (more : list bool) : list bool := low_bits 16 lo ++ low_bits 16 hi ++ flat_map (fun t => low_bits 3 (Z.of_nat t)) (repeat 2 255) ++ more.
Definition demo_coefs : list bool :=
  (coef_word 2 (table_size 2 / 2 + 3) ++ ((coef_word 2 0 ++ low_bits 15 (-1000 + 32768)) ++ (coef_word 2 (table_size 2 / 2) ++ ((coef_word 2 (table_size 2 - 1) ++ low_bits 15 500) ++ [])))).
Definition demo_stream : list bool :=
  flat_map (fun b => low_bits 3 (Z.of_nat (group b))) demo_blocks ++
  demo_level_bits 10 1000 ((low_bits 8 77 ++ low_bits 8 (255 - 0) ++ [] ++ []) ++
    demo_level_bits 0 65535 ((low_bits 8 200 ++ low_bits 8 (255 - 4) ++ demo_coefs ++ []) ++ [])).
Definition demo_content : list Z := pack_bits 220 demo_stream.
Definition demo_tf : tfragment :=
  mkTF (mkFrag (repeat 0 6 ++ [2; 0] ++ repeat 0 35 ++ [1; 8; 32; 0; 0; 44; 1] ++ repeat 0 8 ++ [220; 0; 0; 0])%Z demo_content 5%Z)
       [demo_level 10 1000; demo_level 0 65535] demo_blocks 300 2.
Lemma demo_coefs_coded : coefs_coded (repeat 2 255) [3; -1000; 0; 500]%Z demo_coefs.
Proof.
  assert (Sm : forall n c, 1 <= n < table_size 2 - 1 -> c = (Z.of_nat n - Z.of_nat (table_size 2 / 2))%Z -> coef_coded 2 c (coef_word 2 n)) by (intros n c H ->; now constructor).
  assert (T2 : (3 < table_size 2 / 2) /\ table_size 2 / 2 + 4 < table_size 2 - 1) by (assert (E : (3 <? table_size 2 / 2) && (table_size 2 / 2 + 4 <? table_size 2 - 1) = true) by (vm_compute; reflexivity); lia).
  set (t := table_size 2) in *. change (repeat 2 255) with (2 :: 2 :: 2 :: 2 :: repeat 2 251). unfold demo_coefs. fold t.
  apply coefs_cons; [apply Sm; lia|]. apply coefs_cons; [apply coded_negative; lia|]. apply coefs_cons; [apply Sm; lia|]. apply coefs_cons; [apply coded_positive; lia|]. constructor.
Qed.
Lemma demo_fragment_coded : fragment_coded [demo_level 10 1000; demo_level 0 65535] demo_blocks demo_stream.
Proof.
  assert (W : forall lo hi, (0 <= lo <= hi)%Z -> (hi < 65536)%Z -> well_made (demo_level lo hi)).
  { intros lo hi A B. split; [exact A|]. split; [exact B|]. split; [exact (repeat_length _ _)|]. apply Forall_forall. intros t I. cbn [table_of demo_level] in I. apply repeat_spec in I. lia. }
  split; [cbn; lia|]. split; [repeat constructor|]. eexists. split; [|reflexivity]. unfold demo_level_bits at 1.
  apply levels_cons; [exists (mkBlock 0 77 []); split; [right; now left|reflexivity]|apply W; lia| |].
  - apply (blocks_cons (demo_level 10 1000) (mkBlock 0 77 []) [] [] []); [cbn; lia|constructor|constructor].
  - unfold demo_level_bits. apply (levels_cons demo_blocks 1 (demo_level 0 65535) [] (low_bits 8 200 ++ low_bits 8 (255 - 4) ++ demo_coefs ++ []) []).
    + exists (mkBlock 1 200 [3; -1000; 0; 500]%Z). split; [now left|reflexivity].
    + apply W; lia.
    + apply (blocks_cons (demo_level 0 65535) (mkBlock 1 200 [3; -1000; 0; 500]%Z) [] demo_coefs []); [cbn; lia|exact demo_coefs_coded|constructor].
    + constructor.
Qed.
Example C60_meets : transform_coded 1 demo_tf /\ forall inverse,
  moc_loader (decompress_transform_image inverse) (file_of (repeat 0%Z LABEL_SIZE) [in_file demo_tf]) = Ok (picture_of inverse (levels_of demo_tf) demo_blocks 300 1 2).
Proof.
  assert (T : transform_coded 1 demo_tf).
  { unfold transform_coded. cbv zeta. split; [|split; [|split; [|split; [|split; [|split; [|split]]]]]].
    - split; [reflexivity|]. split; [vm_compute; discriminate|]. split; [apply bytes_ok; vm_compute; reflexivity|]. split; [apply bytes_ok; vm_compute; reflexivity|].
      exists 220%Z, 0%Z. split; [split; vm_compute; reflexivity|]. split; [split; vm_compute; reflexivity|]. vm_compute. reflexivity.
    - exists 8%Z. repeat split. discriminate.
    - exists 32%Z. split; reflexivity.
    - split; vm_compute; reflexivity.
    - split; vm_compute; reflexivity.
    - reflexivity.
    - reflexivity.
    - exists demo_stream, (skipn (List.length demo_stream) (bits_of demo_content)). split; [exact demo_fragment_coded|]. vm_compute. reflexivity. }
  split; [exact T|]. intros inverse. pose proof (C60_file inverse (repeat 0%Z LABEL_SIZE) 1 [demo_tf] [] (repeat_length _ _)) as E. rewrite app_nil_r in E. cbn [map flat_map] in E. rewrite app_nil_r in E.
  apply E; [discriminate|constructor; [exact T|constructor]|cbn; lia].
Qed.
