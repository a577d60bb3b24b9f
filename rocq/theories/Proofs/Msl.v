(** Proofs for C41 and C42 (MSL part). *)
From Coq Require Import ZArith Lia List.
From Verif.Base Require Import Py Numpy.
From Verif.Model Require Import Msl.
From Verif.Spec Require Import Msl.
Open Scope nat_scope.

(** ** Bits *)
Lemma byte_bits_len b : List.length (byte_bits b) = 8. Proof. reflexivity. Qed.
Lemma stream_len data : List.length (stream data) = 8 * List.length data.
Proof. induction data as [|b data IH]; [reflexivity|]. unfold stream in *. cbn [flat_map List.length]. rewrite app_length, byte_bits_len, IH. lia. Qed.
Lemma stream_app a b : stream (a ++ b) = stream a ++ stream b.
Proof. apply flat_map_app. Qed.
Lemma bit_nth data i j : j < 8 -> nth (8 * i + j) (stream data) false = if i <? List.length data then Z.testbit (byte_at data i) (7 - Z.of_nat j) else false.
Proof.
  intros Hj. revert i. induction data as [|b data IH]; intros i.
  - cbn [stream flat_map List.length]. destruct (8 * i + j); reflexivity.
  - unfold stream. cbn [flat_map]. fold (stream data). destruct i as [|i].
    + rewrite app_nth1 by (rewrite byte_bits_len; lia). replace (8 * 0 + j) with j by lia. cbn [List.length Nat.ltb Nat.leb]. unfold byte_at. cbn [nth].
      do 8 (destruct j as [|j]; [reflexivity|]). lia.
    + rewrite app_nth2 by (rewrite byte_bits_len; lia). rewrite byte_bits_len. replace (8 * S i + j - 8) with (8 * i + j) by lia. rewrite IH. reflexivity.
Qed.

(** the reader after [k] bits *)
Definition good (file : list Z) (s : input) (k : nat) : Prop :=
  k = 8 * p s + bit s /\ bit s < 8 /\ p s <= List.length file /\
  (p s < List.length file -> byte_ s = byte_at file (p s) /\ pos s = S (p s)) /\
  (p s = List.length file -> pos s = List.length file /\ bit s = 0).
Lemma refill_good file q : q <= List.length file -> good file (refill file q 0 q) (8 * q).
Proof.
  intros H. unfold refill. destruct (nth_error file q) as [b|] eqn:E.
  - assert (q < List.length file) by (apply nth_error_Some; congruence).
    unfold good; cbn [p bit byte_ pos]; unfold byte_at; rewrite (nth_error_nth _ _ 0%Z E); repeat split; intros; lia.
  - apply nth_error_None in E. unfold good; cbn [p bit byte_ pos]. repeat split; intros; try lia; exfalso; lia.
Qed.
Lemma open_good file : good file (open_bits file) 0. Proof. exact (refill_good file 0 (Nat.le_0_l _)). Qed.
Lemma good_le file s k : good file s k -> k <= 8 * List.length file.
Proof. intros (-> & Hb & Hp & _ & He). destruct (Nat.eq_dec (p s) (List.length file)) as [E|E]; [destruct (He E)|]; lia. Qed.
Lemma land_1 x : Z.land x 1 = Z.b2z (Z.testbit x 0).
Proof. change 1%Z with (Z.ones 1). rewrite Z.land_ones by lia. rewrite Z.bit0_mod. change (2 ^ 1)%Z with 2%Z. reflexivity. Qed.
Lemma next_bit_ok file s k : good file s k -> k < 8 * List.length file ->
  exists s', next_bit file s = (Some (Z.b2z (nth k (stream file) false)), s') /\ good file s' (S k).
Proof.
  intros (-> & Hb & Hp & Hin & He) Hk. assert (H : p s < List.length file) by lia. destruct (Hin H) as [Ey Eo].
  unfold next_bit. apply Nat.leb_gt in H as H'. rewrite H'. rewrite bit_nth by exact Hb. apply Nat.ltb_lt in H as H''. rewrite H''.
  rewrite land_1, Z.shiftr_spec, Z.add_0_l, Ey by lia. eexists. split; [reflexivity|].
  destruct (S (bit s) =? 8) eqn:E8.
  - apply Nat.eqb_eq in E8. rewrite Eo. replace (S (8 * p s + bit s)) with (8 * S (p s)) by lia. apply refill_good. lia.
  - apply Nat.eqb_neq in E8. unfold good; cbn [p bit byte_ pos]. repeat split; intros; try lia; assumption.
Qed.
Lemma next_bit_end file s : good file s (8 * List.length file) -> next_bit file s = (None, s) /\ p s = List.length file.
Proof. intros (E & Hb & Hp & _). assert (p s = List.length file) by lia. split; [|assumption]. unfold next_bit. now rewrite (proj2 (Nat.leb_le _ _)) by lia. Qed.
Lemma skipn_step {A} (l : list A) k a r : skipn k l = a :: r -> (forall d, nth k l d = a) /\ skipn (S k) l = r /\ k < List.length l.
Proof.
  revert k. induction l as [|x l IH]; intros k; [rewrite skipn_nil; discriminate|]. destruct k as [|k]; cbn [skipn nth List.length].
  - intros [= -> ->]. repeat split; lia.
  - intros H. destruct (IH _ H) as (H1 & H2 & H3). repeat split; [assumption..|lia].
Qed.
Lemma next_bit_head file s k b r : good file s k -> skipn k (stream file) = b :: r ->
  exists s', next_bit file s = (Some (Z.b2z b), s') /\ good file s' (S k) /\ skipn (S k) (stream file) = r.
Proof.
  intros Hg Hs. destruct (skipn_step _ _ _ _ Hs) as (Hn & Hr & Hk). rewrite stream_len in Hk.
  destruct (next_bit_ok _ _ _ Hg Hk) as (s' & E & Hg'). rewrite (Hn false) in E. eauto.
Qed.

(** ** Values *)
Lemma flag0 x : (Z.land x 1 =? 0)%Z = negb (Z.testbit x 0).
Proof. rewrite land_1. now destruct (Z.testbit x 0). Qed.
Lemma flag1 x : (Z.land x 2 =? 0)%Z = negb (Z.testbit x 1).
Proof.
  destruct (Z.testbit x 1) eqn:E.
  - apply Z.eqb_neq. intros H. assert (Z.testbit (Z.land x 2) 1 = true) by (rewrite Z.land_spec, E; reflexivity). rewrite H in H0. discriminate.
  - apply Z.eqb_eq. apply Z.bits_inj. intros n. rewrite Z.land_spec, Z.bits_0. change 2%Z with (2 ^ 1)%Z. destruct (Z.eq_dec n 1) as [->|Hn]; [now rewrite E|].
    destruct (Z_lt_ge_dec n 0); [rewrite Z.testbit_neg_r by lia; reflexivity|]. rewrite Z.pow2_bits_false by lia. apply andb_false_r.
Qed.
Lemma next_value_ok file n c v : codes n c v -> forall fuel s k r, List.length c <= fuel -> good file s k -> skipn k (stream file) = c ++ r ->
  exists s', next_value_from fuel file s n = Ok (Some v, s') /\ good file s' (k + List.length c) /\ skipn (k + List.length c) (stream file) = r.
Proof.
  induction 1 as [n Hf|n c v Hf H IH|n Hf|n c v Hf H IH]; intros fuel s k r Hfu Hg Hs; (destruct fuel as [|fuel]; [cbn in Hfu; lia|]); cbn [app] in Hs;
    destruct (next_bit_head _ _ _ _ _ Hg Hs) as (s' & E & Hg' & Hr); cbn [next_value_from]; rewrite E; cbn [Z.b2z Z.eqb];
    unfold entry in Hf; fold (byte_at flags n) in Hf; rewrite ?flag0, ?flag1, Hf; cbn [negb].
  - exists s'. cbn [List.length]. rewrite Nat.add_1_r. auto.
  - cbn [List.length] in *. rewrite Nat.add_succ_r. destruct (IH fuel s' (S k) r) as (s2 & E2 & Hg2 & Hr2); [lia|assumption..|]. exists s2. auto.
  - exists s'. cbn [List.length]. rewrite Nat.add_1_r. auto.
  - cbn [List.length] in *. rewrite Nat.add_succ_r. destruct (IH fuel s' (S k) r) as (s2 & E2 & Hg2 & Hr2); [lia|assumption..|]. exists s2. auto.
Qed.
Lemma land_255 x : Z.land x 255 = (x mod 256)%Z.
Proof. change 255%Z with (Z.ones 8). rewrite Z.land_ones by lia. reflexivity. Qed.
Lemma plane_ok file prev vs bs : plane_coded prev vs bs -> is_byte prev -> forall fuel s k r, List.length bs <= fuel -> good file s k -> skipn k (stream file) = bs ++ r ->
  exists s', decode_values fuel (List.length vs) prev file s = Ok (vs, s') /\ good file s' (k + List.length bs) /\ skipn (k + List.length bs) (stream file) = r.
Proof.
  induction 1 as [prev|prev v vs c bs Hv Hc H IH]; intros Hp fuel s k r Hfu Hg Hs.
  - exists s. cbn in *. rewrite Nat.add_0_r. auto.
  - rewrite app_length in *. rewrite <- app_assoc in Hs. destruct (next_value_ok file _ _ _ Hc fuel s k (bs ++ r)) as (s1 & E1 & Hg1 & Hr1); [lia|assumption..|].
    destruct (IH Hv fuel s1 (k + List.length c) r) as (s2 & E2 & Hg2 & Hr2); [lia|assumption..|].
    exists s2. cbn [List.length decode_values]. unfold next_value. rewrite E1. cbn [rbind]. rewrite !land_255.
    replace ((prev + (v - prev) mod 256 mod 256) mod 256)%Z with v.
    + rewrite E2. cbn [rbind fst snd]. rewrite Nat.add_assoc. auto.
    + unfold is_byte in *. rewrite Zmod_mod, Zplus_mod_idemp_r. replace (prev + (v - prev))%Z with v by lia. now rewrite Z.mod_small.
Qed.

(** ** Markers *)
Lemma sync_ok file n : forall acc s k bs r, List.length bs = n -> good file s k -> skipn k (stream file) = bs ++ r ->
  exists w s', sync_bits n acc file s = (Some w, s') /\ good file s' (k + n) /\ skipn (k + n) (stream file) = r /\
    (forall j, (0 <= j)%Z -> Z.testbit w j = (Z.testbit acc j || if Z.to_nat j <? n then nth (n - 1 - Z.to_nat j) bs false else false)%bool).
Proof.
  induction n as [|n IH]; intros acc s k bs r Hl Hg Hs.
  - exists acc, s. destruct bs; [|discriminate]. cbn in *. rewrite Nat.add_0_r. split; [reflexivity|]. split; [assumption|]. split; [assumption|]. intros j Hj. now rewrite orb_false_r.
  - destruct bs as [|b bs]; [discriminate|]. cbn [app] in Hs. destruct (next_bit_head _ _ _ _ _ Hg Hs) as (s1 & E1 & Hg1 & Hr1).
    cbn [List.length] in Hl. injection Hl as Hl.
    destruct (IH (Z.lor acc (Z.shiftl (Z.b2z b) (Z.of_nat n))) s1 (S k) bs r Hl Hg1 Hr1) as (w & s2 & E2 & Hg2 & Hr2 & Hw).
    exists w, s2. cbn [sync_bits]. rewrite E1. rewrite Nat.add_succ_r. split; [assumption|]. split; [assumption|]. split; [assumption|]. intros j Hj. rewrite (Hw j Hj), Z.lor_spec, <- orb_assoc. f_equal.
    destruct (Nat.ltb_spec (Z.to_nat j) n) as [H|H]; destruct (Nat.ltb_spec (Z.to_nat j) (S n)) as [H'|H']; try lia.
    + rewrite Z.shiftl_spec_low by lia. cbn [orb]. replace (S n - 1 - Z.to_nat j) with (S (n - 1 - Z.to_nat j)) by lia. reflexivity.
    + assert (j = Z.of_nat n) by lia. subst j. rewrite Z.shiftl_spec, Z.sub_diag by lia. replace (S n - 1 - Z.to_nat (Z.of_nat n)) with 0 by lia.
      cbn [nth]. rewrite orb_false_r. now destruct b.
    + rewrite Z.shiftl_spec by lia. rewrite orb_false_r. destruct b; [|apply Z.bits_0]. cbn [Z.b2z]. change 1%Z with (2 ^ 0)%Z. apply Z.pow2_bits_false. lia.
Qed.
Lemma sync_none file n : forall acc s k, good file s k -> 8 * List.length file < k + n -> exists s', sync_bits n acc file s = (None, s') /\ good file s' (8 * List.length file).
Proof.
  induction n as [|n IH]; intros acc s k Hg Hk; [pose proof (good_le _ _ _ Hg); lia|]. cbn [sync_bits].
  destruct (Nat.eq_dec k (8 * List.length file)) as [->|Hne].
  - destruct (next_bit_end _ _ Hg) as [E _]. rewrite E. eauto.
  - pose proof (good_le _ _ _ Hg). destruct (next_bit_ok _ _ _ Hg) as (s' & E & Hg'); [lia|]. rewrite E. apply (IH _ _ (S k)); [assumption|lia].
Qed.
Lemma nth_byte b i : i < 8 -> nth i (byte_bits b) false = Z.testbit b (7 - Z.of_nat i).
Proof. intros H. do 8 (destruct i as [|i]; [reflexivity|]). lia. Qed.
Lemma byte_bits_inj a b : is_byte a -> is_byte b -> byte_bits a = byte_bits b -> a = b.
Proof.
  intros Ha Hb H. apply Z.bits_inj'. intros n Hn. destruct (Z_lt_ge_dec n 8) as [Hlt|Hge].
  - assert (E : nth (7 - Z.to_nat n) (byte_bits a) false = nth (7 - Z.to_nat n) (byte_bits b) false) by now rewrite H.
    rewrite !nth_byte in E by lia. replace (7 - Z.of_nat (7 - Z.to_nat n))%Z with n in E by lia. exact E.
  - unfold is_byte in *. destruct (Z.eq_dec a 0) as [->|Ha0]; destruct (Z.eq_dec b 0) as [->|Hb0]; rewrite ?Z.bits_0; try reflexivity;
      rewrite ?(Z.bits_above_log2 a n), ?(Z.bits_above_log2 b n); try lia; try reflexivity;
      apply Z.log2_lt_pow2; try lia; apply Z.lt_le_trans with (2 ^ 8)%Z; try lia; apply Z.pow_le_mono_r; lia.
Qed.
Lemma app_split_len {A} (a : list A) : forall b c d, List.length a = List.length b -> a ++ c = b ++ d -> a = b /\ c = d.
Proof. induction a as [|x a IH]; intros [|y b] c d Hl H; try discriminate; [auto|]. injection H as -> H. injection Hl as Hl. destruct (IH _ _ _ Hl H) as [-> ->]. auto. Qed.
Lemma stream_inj a : forall b, Forall is_byte a -> Forall is_byte b -> stream a = stream b -> a = b.
Proof.
  induction a as [|x a IH]; intros [|y b] Ha Hb H; [reflexivity|discriminate..|].
  inversion Ha; inversion Hb; subst. change (byte_bits x ++ stream a = byte_bits y ++ stream b) in H.
  apply app_split_len in H as [K1 K2]; [|reflexivity]. f_equal; [now apply byte_bits_inj|now apply IH].
Qed.
Lemma skipn_stream file q : skipn (8 * q) (stream file) = stream (skipn q file).
Proof.
  revert q. induction file as [|b file IH]; intros q; [rewrite !skipn_nil; reflexivity|]. destruct q as [|q]; [reflexivity|].
  change (stream (b :: file)) with (byte_bits b ++ stream file). rewrite skipn_app, byte_bits_len. rewrite (skipn_all2 (byte_bits b)) by (rewrite byte_bits_len; lia).
  replace (8 * S q - 8) with (8 * q) by lia. apply IH.
Qed.
Lemma sync_value w bs : List.length bs = 32 -> (forall j, (0 <= j)%Z -> Z.testbit w j = (Z.testbit 0 j || if Z.to_nat j <? 32 then nth (32 - 1 - Z.to_nat j) bs false else false)%bool) ->
  (w =? PREDSYNC)%Z = true <-> bs = stream marker.
Proof.
  intros Hl Hw. rewrite Z.eqb_eq. split.
  - intros ->. apply (nth_ext _ _ false false); [rewrite Hl; reflexivity|]. intros i Hi. rewrite Hl in Hi. specialize (Hw (31 - Z.of_nat i)%Z ltac:(lia)).
    rewrite Z.bits_0 in Hw. replace (Z.to_nat (31 - Z.of_nat i)) with (31 - i) in Hw by lia. rewrite (proj2 (Nat.ltb_lt _ _)) in Hw by lia.
    replace (32 - 1 - (31 - i)) with i in Hw by lia. rewrite <- (orb_false_l (nth i bs false)), <- Hw.
    do 32 (destruct i as [|i]; [reflexivity|]). lia.
  - intros ->. apply Z.bits_inj'. intros j Hj. rewrite Hw, Z.bits_0 by exact Hj. cbn [orb]. destruct (Nat.ltb_spec (Z.to_nat j) 32) as [H|H].
    + rewrite <- (Z2Nat.id j) by exact Hj. set (i := Z.to_nat j) in *. clearbody i. replace (Z.to_nat (Z.of_nat i)) with i by lia. clear - H. do 32 (destruct i as [|i]; [reflexivity|]). lia.
    + symmetry. apply Z.bits_above_log2; [discriminate|]. change (Z.log2 PREDSYNC) with 31%Z. lia.
Qed.
Lemma step_sync file s q : Forall is_byte file -> good file s (8 * q) -> q + 4 <= List.length file ->
  exists w s', sync_bits 32 0 file s = (Some w, s') /\ good file s' (8 * (q + 4)) /\ ((w =? PREDSYNC)%Z = true <-> firstn 4 (skipn q file) = marker).
Proof.
  intros Hb Hg Hq. set (m := firstn 4 (skipn q file)). assert (Hm : List.length m = 4) by (unfold m; rewrite firstn_length, skipn_length; lia).
  assert (Hs : skipn (8 * q) (stream file) = stream m ++ stream (skipn 4 (skipn q file))).
  { rewrite skipn_stream, <- stream_app. unfold m. now rewrite firstn_skipn. }
  destruct (sync_ok file 32 0%Z s _ (stream m) _ ltac:(rewrite stream_len, Hm; reflexivity) Hg Hs) as (w & s' & E & Hg' & _ & Hw).
  exists w, s'. split; [exact E|]. split; [now replace (8 * (q + 4)) with (8 * q + 32) by lia|].
  rewrite (sync_value w (stream m)); [|rewrite stream_len, Hm; reflexivity|exact Hw]. split; [|intros ->; reflexivity].
  apply stream_inj; [|repeat constructor; unfold is_byte; lia].
  apply Forall_forall. intros x Hx. apply (proj1 (Forall_forall _ _) Hb). rewrite <- (firstn_skipn q file). apply in_or_app. right. rewrite <- (firstn_skipn 4 (skipn q file)). apply in_or_app. now left.
Qed.
Lemma good_bit0 file s q : good file s (8 * q) -> p s = q.
Proof. intros (E & Hb & _). lia. Qed.
Lemma rewind_good file s q : good file s (8 * (q + 4)) -> good file (rewind_bytes file s 3) (8 * S q).
Proof. intros Hg. unfold rewind_bytes. pose proof (good_le _ _ _ Hg) as Hl. rewrite (good_bit0 _ _ _ Hg). replace (q + 4 - 3) with (S q) by lia. apply refill_good. lia. Qed.
Lemma find_sync_ok file m : Forall is_byte file -> firstn 4 (skipn m file) = marker -> forall fuel s q, q <= m -> m - q < fuel -> good file s (8 * q) ->
  (forall i, q <= i < m -> firstn 4 (skipn i file) <> marker) ->
  exists s', find_sync fuel file s = Ok (true, s') /\ good file s' (8 * (m + 4)).
Proof.
  intros Hb Hm. assert (Hl : m + 4 <= List.length file).
  { apply (f_equal (@List.length Z)) in Hm. rewrite firstn_length, skipn_length in Hm. change (List.length marker) with 4 in Hm. lia. }
  induction fuel as [|fuel IH]; intros s q Hq Hf Hg Hno; [lia|]. cbn [find_sync].
  destruct (step_sync file s q Hb Hg ltac:(lia)) as (w & s' & E & Hg' & Hw). rewrite E.
  destruct (Nat.eq_dec q m) as [->|Hne].
  - apply Hw in Hm. rewrite Hm. eauto.
  - destruct (w =? PREDSYNC)%Z; [exfalso; apply (Hno q); [lia|now apply Hw]|]. apply (IH _ (S q)); [lia..|now apply rewind_good|]. intros i Hi. apply Hno. lia.
Qed.
Lemma find_sync_none file : Forall is_byte file -> forall fuel s q, List.length file < q + fuel -> good file s (8 * q) ->
  (forall i, q <= i -> firstn 4 (skipn i file) <> marker) ->
  exists s', find_sync fuel file s = Ok (false, s').
Proof.
  intros Hb. induction fuel as [|fuel IH]; intros s q Hf Hg Hno; [pose proof (good_le _ _ _ Hg); lia|]. cbn [find_sync].
  destruct (le_lt_dec (q + 4) (List.length file)) as [Hle|Hlt].
  - destruct (step_sync file s q Hb Hg Hle) as (w & s' & E & Hg' & Hw). rewrite E.
    destruct (w =? PREDSYNC)%Z; [exfalso; apply (Hno q); [lia|now apply Hw]|]. apply (IH _ (S q)); [lia|now apply rewind_good|]. intros i Hi. apply Hno. lia.
  - destruct (sync_none file 32 0%Z s _ Hg ltac:(lia)) as (s' & E & _). rewrite E. eauto.
Qed.

(** ** Filling up *)
Lemma skip_bits file : forall fuel s k e, good file s k -> k <= 8 * e -> 8 * e < k + 8 -> e <= List.length file -> 8 * e - k <= fuel ->
  exists s', skip_while (fun s => 0 <? bit s) fuel file s = Ok s' /\ good file s' (8 * e).
Proof.
  induction fuel as [|fuel IH]; intros s k e Hg H1 H2 H3 H4; cbn [skip_while]; pose proof Hg as (Ek & Hb & _).
  - assert (bit s = 0) by lia. rewrite H. exists s. split; [reflexivity|]. now replace (8 * e) with k by lia.
  - destruct (Nat.ltb_spec 0 (bit s)) as [Hlt|Hge].
    + destruct (next_bit_ok file s k) as (s' & E & Hg'); [assumption|lia|]. rewrite E. cbn [snd]. apply (IH _ (S k)); [assumption|lia..].
    + exists s. split; [reflexivity|]. now replace (8 * e) with k by lia.
Qed.
Lemma skip_words file : forall fuel s k e, good file s k -> k <= 32 * e -> 32 * e < k + 32 -> 4 * e <= List.length file -> 32 * e - k <= fuel -> (k mod 8 = 0 \/ (k / 8) mod 4 <> 0) ->
  exists s', skip_while (fun s => negb (p s mod 4 =? 0)) fuel file s = Ok s' /\ good file s' (32 * e).
Proof.
  induction fuel as [|fuel IH]; intros s k e Hg H1 H2 H3 H4 H5; cbn [skip_while]; pose proof Hg as (Ek & Hb & Hg').
  - assert (p s mod 4 = 0) by (replace (p s) with (e * 4) by lia; apply Nat.mod_mul; lia). rewrite H. cbn [Nat.eqb negb]. exists s. split; [reflexivity|]. now replace (32 * e) with k by lia.
  - destruct (Nat.eqb_spec (p s mod 4) 0) as [E0|E0]; cbn [negb].
    + exists s. split; [reflexivity|]. assert (Ep : k / 8 = p s) by (rewrite Ek, Nat.mul_comm, Nat.div_add_l, (Nat.div_small (bit s)) by lia; lia).
      destruct H5 as [H5|H5]; [|congruence]. assert (bit s = 0) by (rewrite Ek, Nat.add_comm, Nat.mul_comm, Nat.mod_add, Nat.mod_small in H5 by lia; exact H5).
      replace (32 * e) with k; [assumption|]. pose proof (Nat.div_mod_eq (p s) 4). lia.
    + destruct (Nat.eq_dec k (32 * e)) as [He|He]; [exfalso; apply E0; replace (p s) with (e * 4) by lia; apply Nat.mod_mul; lia|].
      destruct (next_bit_ok file s k) as (s' & E & Hg2); [assumption|lia|]. rewrite E. cbn [snd]. apply (IH _ (S k)); [assumption|lia..|].
      destruct (Nat.eq_dec (bit s) 7) as [H7|H7].
      * left. rewrite Ek, H7. replace (S (8 * p s + 7)) with (S (p s) * 8) by lia. apply Nat.mod_mul. lia.
      * right. replace (S k / 8) with (p s); [exact E0|]. rewrite Ek, <- Nat.add_succ_r, Nat.mul_comm, Nat.div_add_l, (Nat.div_small (S (bit s))) by lia. lia.
Qed.

(** ** Sections *)
Lemma clear_file pre gap rest q : clear gap -> List.length pre <= q < List.length pre + List.length gap -> firstn 4 (skipn q (pre ++ gap ++ marker ++ rest)) <> marker.
Proof.
  intros Hc Hq. rewrite skipn_app, (skipn_all2 pre) by lia. cbn [app]. replace (gap ++ marker ++ rest) with ((gap ++ marker) ++ rest) by now rewrite app_assoc.
  rewrite skipn_app, firstn_app, skipn_length, app_length. change (List.length marker) with 4.
  replace (4 - (List.length gap + 4 - (q - List.length pre))) with 0 by lia. rewrite firstn_O, app_nil_r. apply Hc. lia.
Qed.
Lemma div_up_8 k : k <= 8 * ((k + 7) / 8) /\ 8 * ((k + 7) / 8) < k + 8.
Proof. pose proof (Nat.div_mod_eq (k + 7) 8). pose proof (Nat.mod_upper_bound (k + 7) 8). lia. Qed.
Lemma decode_ok pre vs data post : Forall is_byte (pre ++ data ++ post) -> List.length pre mod 4 = 0 -> section_of vs data ->
  forall fuel s, 8 * List.length (pre ++ data ++ post) + 32 <= fuel -> good (pre ++ data ++ post) s (8 * List.length pre) ->
  exists s', decode_x fuel (List.length vs) (pre ++ data ++ post) s = Ok (vs, s') /\ good (pre ++ data ++ post) s' (8 * List.length (pre ++ data)).
Proof.
  intros Hb Hp (gap & body & bs & pad & -> & Hgap & Hcl & Hpl & Hst & Hpad & Hbody) fuel s Hfu Hg.
  set (file := pre ++ (gap ++ marker ++ body) ++ post) in *.
  assert (Ef : file = pre ++ gap ++ marker ++ (body ++ post)) by (unfold file; now rewrite <- !app_assoc).
  assert (Hlen : List.length file = List.length pre + List.length gap + 4 + List.length body + List.length post) by (rewrite Ef, !app_length; change (List.length marker) with 4; lia).
  set (m := List.length pre + List.length gap).
  assert (Hm : firstn 4 (skipn m file) = marker).
  { rewrite Ef, app_assoc, skipn_app, (skipn_all2 (pre ++ gap)) by (rewrite app_length; lia). rewrite app_length. unfold m. rewrite Nat.sub_diag. reflexivity. }
  destruct (find_sync_ok file m Hb Hm fuel s (List.length pre)) as (s1 & E1 & Hg1); [unfold m; lia..|exact Hg| |].
  { intros i Hi. rewrite Ef. now apply clear_file. }
  assert (Hs1 : skipn (8 * (m + 4)) (stream file) = bs ++ pad ++ stream post).
  { rewrite skipn_stream, Ef, !app_assoc. rewrite <- (app_assoc _ body post), skipn_app.
    rewrite (skipn_all2 ((pre ++ gap) ++ marker)) by (rewrite !app_length; change (List.length marker) with 4; unfold m; lia).
    rewrite !app_length. change (List.length marker) with 4. unfold m. rewrite Nat.sub_diag. cbn [skipn app]. now rewrite stream_app, Hst, <- app_assoc. }
  assert (Hbl : List.length bs + List.length pad = 8 * List.length body) by (rewrite <- app_length, <- Hst; apply stream_len).
  destruct (plane_ok file _ _ _ Hpl ltac:(unfold is_byte; lia) fuel s1 (8 * (m + 4)) (pad ++ stream post)) as (s2 & E2 & Hg2 & Hs2); [lia|assumption..|].
  set (k := 8 * (m + 4) + List.length bs) in *.
  assert (Hmod : exists e, List.length pre + List.length gap + 4 + List.length body = 4 * e).
  { exists (List.length pre / 4 + List.length gap / 4 + 1 + List.length body / 4). pose proof (Nat.div_mod_eq (List.length pre) 4). pose proof (Nat.div_mod_eq (List.length gap) 4). pose proof (Nat.div_mod_eq (List.length body) 4). lia. }
  destruct Hmod as [e He]. pose proof (div_up_8 k) as [U1 U2].
  destruct (skip_bits file fuel s2 k ((k + 7) / 8) Hg2) as (s3 & E3 & Hg3); [unfold m in *; lia..|].
  destruct (skip_words file fuel s3 _ e Hg3) as (s4 & E4 & Hg4); [unfold m in *; lia..| |].
  { left. rewrite Nat.mul_comm. apply Nat.mod_mul. lia. }
  exists s4. split.
  - unfold decode_x. rewrite E1. cbn [rbind fst snd negb]. rewrite E2. cbn [rbind fst snd]. rewrite E3. cbn [rbind]. rewrite E4. reflexivity.
  - replace (8 * List.length (pre ++ gap ++ marker ++ body)) with (32 * e); [exact Hg4|]. rewrite !app_length. change (List.length marker) with 4. lia.
Qed.
Lemma section_mod vs data : section_of vs data -> List.length data mod 4 = 0 /\ 4 <= List.length data.
Proof.
  intros (gap & body & bs & pad & -> & Hgap & Hcl & Hpl & Hst & Hpad & Hbody). rewrite !app_length. change (List.length marker) with 4.
  rewrite Nat.add_mod, Hgap, (Nat.add_mod 4), Hbody by lia. split; [reflexivity|lia].
Qed.

(** ** Groups *)
Lemma seq_add a b l : seq (a + b) l = map (Nat.add a) (seq b l).
Proof. revert b. induction l as [|l IH]; intros b; [reflexivity|]. cbn [seq map]. now rewrite <- IH, Nat.add_succ_r. Qed.
Lemma flat_map_seq {A} (f : nat -> nat -> A) n m : 0 < n ->
  flat_map (fun y => map (f y) (seq 0 n)) (seq 0 m) = map (fun k => f (k / n) (k mod n)) (seq 0 (m * n)).
Proof.
  intros Hn. induction m as [|m IH]; [reflexivity|]. rewrite seq_S, flat_map_app, IH. cbn [flat_map]. rewrite app_nil_r.
  replace (S m * n) with (m * n + n) by lia. rewrite seq_app, map_app. f_equal. rewrite !Nat.add_0_l.
  rewrite <- (Nat.add_0_r (m * n)) at 1. rewrite seq_add.
  rewrite map_map. apply map_ext_in. intros a Ha. apply in_seq in Ha. rewrite Nat.div_add_l, (Nat.div_small a), Nat.add_0_r by lia.
  now rewrite Nat.add_comm, Nat.mod_add, Nat.mod_small by lia.
Qed.
Lemma flat_map_twice {A} (f : nat -> list A) n : flat_map (fun x => f (2 * x) ++ f (2 * x + 1)) (seq 0 n) = flat_map f (seq 0 (2 * n)).
Proof.
  induction n as [|n IH]; [reflexivity|]. rewrite seq_S, flat_map_app, IH. replace (2 * S n) with (S (S (2 * n))) by lia. rewrite !seq_S, !flat_map_app. cbn [flat_map].
  rewrite !app_nil_r, !Nat.add_0_l, <- app_assoc. replace (S (2 * n)) with (2 * n + 1) by lia. reflexivity.
Qed.
Lemma flat_map_one {A B} (f : A -> B) l : flat_map (fun x => [f x]) l = map f l.
Proof. induction l as [|x l IH]; [reflexivity|]. cbn. now rewrite IH. Qed.
Lemma flat_map_ext_in {A B} (f g : A -> list B) l : (forall x, In x l -> f x = g x) -> flat_map f l = flat_map g l.
Proof. induction l as [|x l IH]; intros H; [reflexivity|]. cbn [flat_map]. rewrite (H x), IH; [reflexivity| |now left]. intros y Hy. apply H. now right. Qed.
Lemma plane_nth pixel w g i j y x : 0 < w / 2 -> x < w / 2 -> y < 4 -> byte_at (plane pixel w g i j) (y * (w / 2) + x) = pixel (8 * g + 2 * y + i) (2 * x + j).
Proof.
  intros Hw Hx Hy. unfold plane, byte_at. set (n := w / 2) in *. rewrite (flat_map_seq (fun y x => pixel (8 * g + 2 * y + i) (2 * x + j)) n 4 Hw).
  set (h := fun k => _). rewrite (nth_indep _ 0%Z (h 0)) by (rewrite map_length, seq_length; nia). rewrite map_nth, seq_nth by nia. unfold h.
  rewrite Nat.add_0_l, Nat.div_add_l, (Nat.div_small x), Nat.add_0_r by lia.
  replace ((y * n + x) mod n) with x by (now rewrite Nat.add_comm, Nat.mod_add, Nat.mod_small by lia). reflexivity.
Qed.
Lemma flat_map_const {A B} n (f : A -> list B) l : (forall x, List.length (f x) = n) -> List.length (flat_map f l) = List.length l * n.
Proof. intros H. induction l as [|x l IH]; [reflexivity|]. cbn [flat_map List.length]. rewrite app_length, H, IH. lia. Qed.
Lemma plane_len pixel w g i j : List.length (plane pixel w g i j) = 4 * (w / 2).
Proof. unfold plane. rewrite (flat_map_const (w / 2)); [now rewrite seq_length|]. intros y. now rewrite map_length, seq_length. Qed.
Lemma weave_rows pixel w g : Nat.even w = true -> 0 < w ->
  weave w (plane pixel w g 0 0) (plane pixel w g 0 1) (plane pixel w g 1 0) (plane pixel w g 1 1) =
  flat_map (fun r => map (pixel (8 * g + r)) (seq 0 w)) (seq 0 8).
Proof.
  intros Hev Hw. apply Nat.even_spec in Hev as [n Hn]. assert (Hd : w / 2 = n) by (rewrite Hn, Nat.mul_comm; apply Nat.div_mul; lia).
  unfold weave. change (seq 0 8) with (seq 0 (2 * 4)). rewrite <- (flat_map_twice (fun r => map (pixel (8 * g + r)) (seq 0 w)) 4).
  assert (row : forall y i, y < 4 -> i < 2 ->
    flat_map (fun x => [byte_at (plane pixel w g i 0) (y * (w / 2) + x); byte_at (plane pixel w g i 1) (y * (w / 2) + x)]) (seq 0 (w / 2)) =
    map (pixel (8 * g + (2 * y + i))) (seq 0 w)).
  { intros y i Hy Hi. rewrite (flat_map_ext_in _ (fun x => [pixel (8 * g + (2 * y + i)) (2 * x)] ++ [pixel (8 * g + (2 * y + i)) (2 * x + 1)])).
    - rewrite (flat_map_twice (fun x => [pixel (8 * g + (2 * y + i)) x])), flat_map_one, Hd, <- Hn. reflexivity.
    - intros x Hx. apply in_seq in Hx. rewrite !plane_nth by lia. cbn [app]. now rewrite Nat.add_0_r, <- !Nat.add_assoc. }
  apply flat_map_ext_in. intros y Hy. apply in_seq in Hy. rewrite (row y 0), (row y 1) by lia. now rewrite Nat.add_0_r.
Qed.
Lemma weave_len w a b c d : Nat.even w = true -> List.length (weave w a b c d) = 8 * w.
Proof.
  intros Hev. apply Nat.even_spec in Hev as [n Hn]. assert (Hd : w / 2 = n) by (rewrite Hn, Nat.mul_comm; apply Nat.div_mul; lia).
  unfold weave. rewrite (flat_map_const (2 * w)); [rewrite seq_length; lia|]. intros y.
  rewrite app_length, !(flat_map_const 2), seq_length by reflexivity. lia.
Qed.
Lemma groups_ok pixel w : Nat.even w = true -> 0 < w -> forall n g pre data post, Forall is_byte (pre ++ data ++ post) -> List.length pre mod 4 = 0 ->
  sections_of (planes pixel w g n) data -> forall fuel s m, 8 * List.length (pre ++ data ++ post) + 32 <= fuel -> good (pre ++ data ++ post) s (8 * List.length pre) ->
  exists s', good (pre ++ data ++ post) s' (8 * List.length (pre ++ data)) /\ groups fuel (n + m) w (pre ++ data ++ post) s =
    rbind (groups fuel m w (pre ++ data ++ post) s') (fun rest => Ok (flat_map (fun r => map (pixel (8 * g + r)) (seq 0 w)) (seq 0 (8 * n)) ++ rest)).
Proof.
  intros Hev Hw. induction n as [|n IH]; intros g pre data post Hb Hp Hs fuel s m Hfu Hg.
  - inversion Hs; subst. exists s. rewrite app_nil_r. split; [assumption|]. cbn [Nat.add Nat.mul seq flat_map app]. destruct (groups _ _ _ _ s); reflexivity.
  - change (planes pixel w g (S n)) with ([plane pixel w g 0 0; plane pixel w g 0 1; plane pixel w g 1 0; plane pixel w g 1 1] ++ planes pixel w (S g) n) in Hs. cbn [app] in Hs.
    inversion Hs as [|? ? da da' Ha Hs']; subst. inversion Hs' as [|? ? db db' Hb' Hs'']; subst. inversion Hs'' as [|? ? dc dc' Hc Hs3]; subst. inversion Hs3 as [|? ? dd data Hd Hs4]; subst.
    clear Hs Hs' Hs'' Hs3. set (file := pre ++ (da ++ db ++ dc ++ dd ++ data) ++ post) in *.
    destruct (section_mod _ _ Ha) as [Ma La]. destruct (section_mod _ _ Hb') as [Mb Lb]. destruct (section_mod _ _ Hc) as [Mc Lc]. destruct (section_mod _ _ Hd) as [Md Ld].
    assert (Hoff : forall i j, 8 * w / 4 = List.length (plane pixel w g i j)).
    { intros i j. rewrite plane_len. apply Nat.even_spec in Hev as [h Hh]. rewrite Hh. rewrite (Nat.mul_comm 2 h), Nat.div_mul by lia. replace (8 * (h * 2)) with ((4 * h) * 4) by lia. now rewrite Nat.div_mul. }
    assert (mod4 : forall a b : list Z, List.length a mod 4 = 0 -> List.length b mod 4 = 0 -> List.length (a ++ b) mod 4 = 0) by (intros a b H1 H2; now rewrite app_length, Nat.add_mod, H1, H2 by lia).
    assert (E1 : file = pre ++ da ++ (db ++ dc ++ dd ++ data ++ post)) by (unfold file; now rewrite <- !app_assoc).
    assert (E2 : file = (pre ++ da) ++ db ++ (dc ++ dd ++ data ++ post)) by (unfold file; now rewrite <- !app_assoc).
    assert (E3 : file = ((pre ++ da) ++ db) ++ dc ++ (dd ++ data ++ post)) by (unfold file; now rewrite <- !app_assoc).
    assert (E4 : file = (((pre ++ da) ++ db) ++ dc) ++ dd ++ (data ++ post)) by (unfold file; now rewrite <- !app_assoc).
    assert (E5 : file = ((((pre ++ da) ++ db) ++ dc) ++ dd) ++ data ++ post) by (unfold file; now rewrite <- !app_assoc).
    cbn [Nat.add groups].
    assert (Hpos : (List.length file <=? pos s) = false).
    { apply Nat.leb_gt. pose proof (good_bit0 _ _ _ Hg) as Eps. destruct Hg as (_ & _ & _ & Hin & _). assert (HL : List.length pre + 4 <= List.length file) by (rewrite E1, !app_length; lia). destruct Hin as [_ ->]; lia. }
    rewrite Hpos.
    assert (R1 : exists s1, decode_x fuel (8 * w / 4) file s = Ok (plane pixel w g 0 0, s1) /\ good file s1 (8 * List.length (pre ++ da))).
    { rewrite (Hoff 0 0). rewrite E1 in *. now apply decode_ok. }
    destruct R1 as (s1 & D1 & G1).
    assert (R2 : exists s2, decode_x fuel (8 * w / 4) file s1 = Ok (plane pixel w g 0 1, s2) /\ good file s2 (8 * List.length ((pre ++ da) ++ db))).
    { rewrite (Hoff 0 1). rewrite E2 in *. apply decode_ok; auto. }
    destruct R2 as (s2 & D2 & G2).
    assert (R3 : exists s3, decode_x fuel (8 * w / 4) file s2 = Ok (plane pixel w g 1 0, s3) /\ good file s3 (8 * List.length (((pre ++ da) ++ db) ++ dc))).
    { rewrite (Hoff 1 0). rewrite E3 in *. apply decode_ok; auto. }
    destruct R3 as (s3 & D3 & G3).
    assert (R4 : exists s4, decode_x fuel (8 * w / 4) file s3 = Ok (plane pixel w g 1 1, s4) /\ good file s4 (8 * List.length ((((pre ++ da) ++ db) ++ dc) ++ dd))).
    { rewrite (Hoff 1 1). rewrite E4 in *. apply decode_ok; auto. }
    destruct R4 as (s4 & D4 & G4).
    assert (R5 : exists s', good file s' (8 * List.length (((((pre ++ da) ++ db) ++ dc) ++ dd) ++ data)) /\ groups fuel (n + m) w file s4 = rbind (groups fuel m w file s') (fun rest => Ok (flat_map (fun r => map (pixel (8 * S g + r)) (seq 0 w)) (seq 0 (8 * n)) ++ rest))).
    { rewrite E5 in *. apply IH; auto. }
    destruct R5 as (s' & G5 & D5). exists s'. split.
    { replace (pre ++ da ++ db ++ dc ++ dd ++ data) with (((((pre ++ da) ++ db) ++ dc) ++ dd) ++ data) by now rewrite <- !app_assoc. exact G5. }
    rewrite D1. cbn [rbind fst snd]. rewrite D2. cbn [rbind fst snd]. rewrite D3. cbn [rbind fst snd]. rewrite D4. cbn [rbind fst snd]. rewrite D5.
    rewrite weave_rows by assumption. replace (8 * S n) with (8 + 8 * n) by lia. rewrite seq_app, flat_map_app.
    replace (flat_map (fun r => map (pixel (8 * g + r)) (seq 0 w)) (seq (0 + 8) (8 * n))) with (flat_map (fun r => map (pixel (8 * S g + r)) (seq 0 w)) (seq 0 (8 * n))).
    + destruct (groups fuel m w file s') as [rest|e]; cbn [rbind]; [now rewrite app_assoc|reflexivity].
    + change (0 + 8) with 8. generalize (8 * n) at 1 2. intros l. rewrite (seq_add 8 0).
      rewrite !flat_map_concat_map, map_map. f_equal. apply map_ext. intros r. replace (8 * S g + r) with (8 * g + (8 + r)) by lia. reflexivity.
Qed.

(** ** Files that end too early *)
Lemma next_value_cut file n c v : codes n c v -> forall fuel s k c' c'', List.length c <= fuel -> good file s k -> skipn k (stream file) = c' -> c = c' ++ c'' -> c'' <> [] ->
  exists s', next_value_from fuel file s n = Ok (None, s').
Proof.
  assert (End : forall fuel s k n, good file s k -> skipn k (stream file) = [] -> 0 < fuel -> exists s', next_value_from fuel file s n = Ok (None, s')).
  { intros fuel s k n0 Hg He Hf. destruct fuel as [|fuel]; [lia|]. assert (k = 8 * List.length file).
    { apply (f_equal (@List.length bool)) in He. rewrite skipn_length, stream_len in He. cbn in He. pose proof (good_le _ _ _ Hg). lia. }
    subst k. destruct (next_bit_end _ _ Hg) as [E _]. cbn [next_value_from]. rewrite E. eauto. }
  induction 1 as [n Hf|n c v Hf H IH|n Hf|n c v Hf H IH]; intros fuel s k c' c'' Hfu Hg Hs Hc Hne.
  - destruct c' as [|b c']; [apply (End _ _ k); auto; cbn in Hfu; lia|]. destruct c'; [destruct c''; [congruence|discriminate]|discriminate].
  - destruct c' as [|b c']; [apply (End _ _ k); auto; cbn in Hfu; lia|]. injection Hc as <- Hc. cbn [List.length] in Hfu. destruct fuel as [|fuel]; [lia|].
    destruct (next_bit_head _ _ _ _ _ Hg Hs) as (s' & E & Hg' & Hr). cbn [next_value_from]. rewrite E. cbn [Z.b2z Z.eqb]. unfold entry in Hf; fold (byte_at flags n) in Hf. rewrite flag0, Hf. cbn [negb].
    apply (IH fuel s' (S k) c' c''); [lia|assumption..].
  - destruct c' as [|b c']; [apply (End _ _ k); auto; cbn in Hfu; lia|]. destruct c'; [destruct c''; [congruence|discriminate]|discriminate].
  - destruct c' as [|b c']; [apply (End _ _ k); auto; cbn in Hfu; lia|]. injection Hc as <- Hc. cbn [List.length] in Hfu. destruct fuel as [|fuel]; [lia|].
    destruct (next_bit_head _ _ _ _ _ Hg Hs) as (s' & E & Hg' & Hr). cbn [next_value_from]. rewrite E. cbn [Z.b2z Z.eqb]. unfold entry in Hf; fold (byte_at flags n) in Hf. rewrite flag1, Hf. cbn [negb].
    apply (IH fuel s' (S k) c' c''); [lia|assumption..].
Qed.
Lemma plane_cut file prev vs bs : plane_coded prev vs bs -> is_byte prev -> forall fuel s k bs' bs'', List.length bs <= fuel -> good file s k -> skipn k (stream file) = bs' ->
  bs = bs' ++ bs'' -> bs'' <> [] -> decode_values fuel (List.length vs) prev file s = Err OSError.
Proof.
  induction 1 as [prev|prev v vs c bs Hv Hc H IH]; intros Hp fuel s k bs' bs'' Hfu Hg Hs Hbs Hne.
  - destruct bs'; destruct bs''; try discriminate; congruence.
  - rewrite app_length in Hfu. cbn [List.length decode_values]. unfold next_value.
    destruct (le_lt_dec (List.length c) (List.length bs')) as [Hle|Hlt].
    + assert (Eb : bs' = c ++ skipn (List.length c) bs').
      { rewrite <- (firstn_skipn (List.length c) bs') at 1. f_equal. apply (f_equal (firstn (List.length c))) in Hbs.
        rewrite firstn_app, Nat.sub_diag, firstn_all, firstn_O, app_nil_r, firstn_app in Hbs.
        replace (List.length c - List.length bs') with 0 in Hbs by lia. now rewrite firstn_O, app_nil_r in Hbs. }
      rewrite Eb in Hs. destruct (next_value_ok file _ _ _ Hc fuel s k _ ltac:(lia) Hg Hs) as (s1 & E1 & Hg1 & Hr1). rewrite E1. cbn [rbind].
      rewrite !land_255. replace ((prev + (v - prev) mod 256 mod 256) mod 256)%Z with v.
      * rewrite (IH Hv fuel s1 _ _ bs'' ltac:(lia) Hg1 Hr1); [reflexivity| |assumption]. rewrite Eb, <- app_assoc in Hbs. now apply app_inv_head in Hbs.
      * unfold is_byte in *. rewrite Zmod_mod, Zplus_mod_idemp_r. replace (prev + (v - prev))%Z with v by lia. now rewrite Z.mod_small.
    + destruct (next_value_cut file _ _ _ Hc fuel s k bs' (skipn (List.length bs') c) ltac:(lia) Hg Hs) as (s1 & E1).
      * rewrite <- (firstn_skipn (List.length bs') c) at 1. f_equal. apply (f_equal (firstn (List.length bs'))) in Hbs.
        rewrite !firstn_app, Nat.sub_diag, firstn_all, firstn_O, app_nil_r in Hbs. replace (List.length bs' - List.length c) with 0 in Hbs by lia. now rewrite firstn_O, app_nil_r in Hbs.
      * intros E. apply (f_equal (@List.length bool)) in E. rewrite skipn_length in E. cbn in E. lia.
      * rewrite E1. reflexivity.
Qed.
Lemma firstn_prefix {A} (a b : list A) q n : q + n <= List.length a -> firstn n (skipn q (a ++ b)) = firstn n (skipn q a).
Proof. intros H. rewrite skipn_app, firstn_app, skipn_length. replace (n - (List.length a - q)) with 0 by lia. now rewrite firstn_O, app_nil_r. Qed.
Lemma app_prefix {A} (a b c d : list A) : a ++ b = c ++ d -> List.length c <= List.length a -> exists r, a = c ++ r /\ d = r ++ b.
Proof.
  revert c. induction a as [|x a IH]; intros [|y c] H Hl; cbn in Hl; try lia.
  - exists []. auto.
  - exists (x :: a). auto.
  - injection H as -> H. destruct (IH c H ltac:(lia)) as (r & -> & ->). exists r. auto.
Qed.
Lemma no_marker_end file i : List.length file < i + 4 -> firstn 4 (skipn i file) <> marker.
Proof. intros H E. apply (f_equal (@List.length Z)) in E. rewrite firstn_length, skipn_length in E. change (List.length marker) with 4 in E. lia. Qed.
Lemma decode_cut pre vs part lost : Forall is_byte (pre ++ part) -> List.length (pre ++ part) mod 4 = 0 -> List.length pre mod 4 = 0 -> section_of vs (part ++ lost) -> lost <> [] ->
  forall fuel s, 8 * List.length ((pre ++ part) ++ lost) + 32 <= fuel -> good (pre ++ part) s (8 * List.length pre) ->
  decode_x fuel (List.length vs) (pre ++ part) s = Err OSError.
Proof.
  intros Hb Hm Hp (gap & body & bs & pad & Hd & Hgap & Hcl & Hpl & Hst & Hpad & Hbody) Hlost fuel s Hfu Hg. set (file := pre ++ part) in *.
  assert (Hll : 0 < List.length lost) by (destruct lost; [congruence|cbn; lia]).
  assert (Hpart : List.length part + List.length lost = List.length gap + 4 + List.length body) by (rewrite <- app_length, Hd, !app_length; change (List.length marker) with 4; lia).
  assert (Hfile : List.length file = List.length pre + List.length part) by (unfold file; apply app_length).
  rewrite app_length in Hfu. unfold decode_x.
  destruct (le_lt_dec (List.length gap + 4) (List.length part)) as [Hle|Hlt].
  - rewrite app_assoc in Hd. destruct (app_prefix _ _ _ _ Hd) as (body' & Ep & Eb); [rewrite app_length; change (List.length marker) with 4; lia|].
    assert (Ef : file = pre ++ gap ++ marker ++ body') by (unfold file; rewrite Ep, <- app_assoc; reflexivity).
    set (m := List.length pre + List.length gap).
    assert (Hmk : firstn 4 (skipn m file) = marker).
    { rewrite Ef, app_assoc, skipn_app, (skipn_all2 (pre ++ gap)) by (rewrite app_length; lia). rewrite app_length. unfold m. rewrite Nat.sub_diag. reflexivity. }
    destruct (find_sync_ok file m Hb Hmk fuel s (List.length pre)) as (s1 & E1 & Hg1); [unfold m; lia..|exact Hg| |].
    { intros i Hi. rewrite Ef. now apply clear_file. }
    rewrite E1. cbn [rbind fst snd negb].
    assert (Hs1 : skipn (8 * (m + 4)) (stream file) = stream body').
    { rewrite skipn_stream, Ef, !app_assoc, skipn_app.
      rewrite (skipn_all2 ((pre ++ gap) ++ marker)) by (rewrite !app_length; change (List.length marker) with 4; unfold m; lia).
      rewrite !app_length. change (List.length marker) with 4. unfold m. now rewrite Nat.sub_diag. }
    assert (Hlp : List.length part = List.length gap + 4 + List.length body') by (rewrite Ep, !app_length; change (List.length marker) with 4; lia).
    rewrite Eb, stream_app in Hst.
    assert (Hbl : List.length bs + List.length pad = 8 * List.length body) by (rewrite <- app_length, <- Hst, <- stream_app, <- Eb; apply stream_len).
    assert (Hcut : 8 * List.length body' < List.length bs).
    { apply Nat.nle_gt. intros Hge. assert (Hd4 : exists d, List.length lost = 4 * d).
      { exists (List.length gap / 4 + 1 + List.length body / 4 + List.length pre / 4 - List.length file / 4).
        pose proof (Nat.div_mod_eq (List.length gap) 4). pose proof (Nat.div_mod_eq (List.length body) 4). pose proof (Nat.div_mod_eq (List.length pre) 4). pose proof (Nat.div_mod_eq (List.length file) 4). lia. }
      destruct Hd4 as [d Hd4]. lia. }
    destruct (app_prefix bs pad (stream body') (stream lost) (eq_sym Hst)) as (bs'' & E2 & _); [rewrite stream_len; lia|].
    rewrite (plane_cut file _ _ _ Hpl ltac:(unfold is_byte; lia) fuel s1 _ _ bs'' ltac:(lia) Hg1 Hs1 E2).
    + reflexivity.
    + intros ->. rewrite app_nil_r in E2. apply (f_equal (@List.length bool)) in E2. rewrite stream_len in E2. lia.
  - destruct (find_sync_none file Hb fuel s (List.length pre)) as (s1 & E1); [lia|exact Hg| |rewrite E1; reflexivity].
    intros i Hi. destruct (le_lt_dec (i + 4) (List.length file)) as [H4|H4]; [|now apply no_marker_end].
    unfold file. rewrite skipn_app, (skipn_all2 pre) by lia. cbn [app]. set (q := i - List.length pre).
    rewrite <- (firstn_prefix part lost q 4) by (unfold q; lia). rewrite Hd, app_assoc, firstn_prefix by (rewrite app_length; change (List.length marker) with 4; unfold q; lia).
    apply Hcl. unfold q. lia.
Qed.
Lemma skip_stuck file l : l = List.length file -> l mod 4 <> 0 -> forall fuel s k, good file s k -> l / 4 = p s / 4 -> p s mod 4 <> 0 ->
  skip_while (fun s => negb (p s mod 4 =? 0)) fuel file s = Err OutOfFuel.
Proof.
  intros -> Hl. induction fuel as [|fuel IH]; intros s k Hg Hd Hm; cbn [skip_while]; (apply Nat.eqb_neq in Hm as Hm'; rewrite Hm'; cbn [negb]); [reflexivity|].
  destruct (Nat.eq_dec k (8 * List.length file)) as [->|Hne].
  - destruct (next_bit_end _ _ Hg) as [E _]. rewrite E. cbn [snd]. eapply IH; eassumption.
  - pose proof (good_le _ _ _ Hg). destruct (next_bit_ok _ _ _ Hg) as (s' & E & Hg'); [lia|]. rewrite E. cbn [snd].
    assert (Hp : p s <= p s' <= List.length file) by (destruct Hg as (? & ? & _); destruct Hg' as (? & ? & ? & _); lia).
    pose proof (Nat.div_mod_eq (p s) 4). pose proof (Nat.div_mod_eq (p s') 4). pose proof (Nat.div_mod_eq (List.length file) 4).
    pose proof (Nat.mod_upper_bound (List.length file) 4). pose proof (Nat.mod_upper_bound (p s') 4). pose proof (Nat.mod_upper_bound (p s) 4).
    apply (IH s' (S k)); [assumption|lia..].
Qed.

(** ** Fuel *)
Lemma value_mono file : forall fuel fuel' s n, fuel <= fuel' -> next_value_from fuel file s n <> Err OutOfFuel -> next_value_from fuel' file s n = next_value_from fuel file s n.
Proof.
  induction fuel as [|fuel IH]; intros fuel' s n Hl H; [now cbn in H|]. destruct fuel' as [|fuel']; [lia|]. cbn [next_value_from] in *.
  destruct (next_bit file s) as [[b|] s']; [|reflexivity].
  destruct (b =? 0)%Z; [destruct (Z.land (byte_at flags n) 1 =? 0)%Z|destruct (Z.land (byte_at flags n) 2 =? 0)%Z]; try reflexivity; apply IH; try lia; assumption.
Qed.
Lemma values_mono file : forall n fuel fuel' prev s, fuel <= fuel' -> decode_values fuel n prev file s <> Err OutOfFuel -> decode_values fuel' n prev file s = decode_values fuel n prev file s.
Proof.
  induction n as [|n IH]; intros fuel fuel' prev s Hl H; [reflexivity|]. cbn [decode_values] in *. unfold next_value in *.
  rewrite (value_mono file fuel fuel' s 0 Hl) by (intros E; rewrite E in H; now cbn in H).
  destruct (next_value_from fuel file s 0) as [[[v|] s']|e]; cbn [rbind] in *; try reflexivity.
  rewrite (IH fuel fuel' _ s' Hl); [reflexivity|]. intros E. rewrite E in H. now cbn in H.
Qed.
Lemma sync_mono file : forall fuel fuel' s, fuel <= fuel' -> find_sync fuel file s <> Err OutOfFuel -> find_sync fuel' file s = find_sync fuel file s.
Proof.
  induction fuel as [|fuel IH]; intros fuel' s Hl H; [now cbn in H|]. destruct fuel' as [|fuel']; [lia|]. cbn [find_sync] in *.
  destruct (sync_bits 32 0 file s) as [[w|] s']; [|reflexivity]. destruct (w =? PREDSYNC)%Z; [reflexivity|]. apply IH; [lia|assumption].
Qed.
Lemma skip_mono cond file : forall fuel fuel' s, fuel <= fuel' -> skip_while cond fuel file s <> Err OutOfFuel -> skip_while cond fuel' file s = skip_while cond fuel file s.
Proof.
  induction fuel as [|fuel IH]; intros fuel' s Hl H.
  - destruct fuel'; cbn [skip_while] in *; destruct (cond s); congruence.
  - destruct fuel' as [|fuel']; [lia|]. cbn [skip_while] in *. destruct (cond s); [|reflexivity]. apply IH; [lia|assumption].
Qed.
Lemma decode_mono file : forall fuel fuel' w s, fuel <= fuel' -> decode_x fuel w file s <> Err OutOfFuel -> decode_x fuel' w file s = decode_x fuel w file s.
Proof.
  intros fuel fuel' w s Hl H. unfold decode_x in *. rewrite (sync_mono file fuel fuel' s Hl) by (intros E; rewrite E in H; now cbn in H).
  destruct (find_sync fuel file s) as [[b s1]|e]; cbn [rbind fst snd] in *; [|reflexivity]. destruct b; cbn [negb] in *; [|reflexivity].
  rewrite (values_mono file w fuel fuel' 0%Z s1 Hl) by (intros E; rewrite E in H; now cbn in H).
  destruct (decode_values fuel w 0 file s1) as [[vs s2]|e]; cbn [rbind fst snd] in *; [|reflexivity].
  rewrite (skip_mono _ file fuel fuel' s2 Hl) by (intros E; rewrite E in H; now cbn in H).
  destruct (skip_while (fun s => 0 <? bit s) fuel file s2) as [s3|e]; cbn [rbind] in *; [|reflexivity].
  rewrite (skip_mono _ file fuel fuel' s3 Hl) by (intros E; rewrite E in H; now cbn in H). reflexivity.
Qed.
Lemma groups_mono file w : forall n fuel fuel' s, fuel <= fuel' -> groups fuel n w file s <> Err OutOfFuel -> groups fuel' n w file s = groups fuel n w file s.
Proof.
  induction n as [|n IH]; intros fuel fuel' s Hl H; [reflexivity|]. cbn [groups] in *. destruct (List.length file <=? pos s); [reflexivity|].
  rewrite (decode_mono file fuel fuel' _ s Hl) by (intros E; rewrite E in H; now cbn in H).
  destruct (decode_x fuel (8 * w / 4) file s) as [[a s1]|e]; cbn [rbind fst snd] in *; [|reflexivity].
  rewrite (decode_mono file fuel fuel' _ s1 Hl) by (intros E; rewrite E in H; now cbn in H).
  destruct (decode_x fuel (8 * w / 4) file s1) as [[b s2]|e]; cbn [rbind fst snd] in *; [|reflexivity].
  rewrite (decode_mono file fuel fuel' _ s2 Hl) by (intros E; rewrite E in H; now cbn in H).
  destruct (decode_x fuel (8 * w / 4) file s2) as [[c s3]|e]; cbn [rbind fst snd] in *; [|reflexivity].
  rewrite (decode_mono file fuel fuel' _ s3 Hl) by (intros E; rewrite E in H; now cbn in H).
  destruct (decode_x fuel (8 * w / 4) file s3) as [[d s4]|e]; cbn [rbind fst snd] in *; [|reflexivity].
  rewrite (IH fuel fuel' s4 Hl); [reflexivity|]. intros E. rewrite E in H. now cbn in H.
Qed.

(** ** Every file whose length is a multiple of four *)
Lemma value_total file : forall fuel s k n, good file s k -> 8 * List.length file < k + fuel ->
  exists v s' k', next_value_from fuel file s n = Ok (v, s') /\ good file s' k' /\ k <= k'.
Proof.
  induction fuel as [|fuel IH]; intros s k n Hg Hf; [pose proof (good_le _ _ _ Hg); lia|]. cbn [next_value_from].
  destruct (Nat.eq_dec k (8 * List.length file)) as [->|Hne].
  - destruct (next_bit_end _ _ Hg) as [E _]. rewrite E. exists None, s. eauto.
  - pose proof (good_le _ _ _ Hg). destruct (next_bit_ok _ _ _ Hg) as (s' & E & Hg'); [lia|]. rewrite E.
    assert (R : forall m, exists v s2 k2, next_value_from fuel file s' m = Ok (v, s2) /\ good file s2 k2 /\ k <= k2).
    { intros m. destruct (IH s' (S k) m Hg' ltac:(lia)) as (v & s2 & k2 & E2 & Hg2 & Hk). exists v, s2, k2. repeat split; try apply Hg2; try assumption; lia. }
    destruct (Z.b2z (nth k (stream file) false) =? 0)%Z; [destruct (Z.land (byte_at flags n) 1 =? 0)%Z|destruct (Z.land (byte_at flags n) 2 =? 0)%Z]; try apply R; eexists _, s', (S k); (split; [reflexivity|split; [exact Hg'|lia]]).
Qed.
Lemma values_total file : forall n fuel prev s k, good file s k -> 8 * List.length file < fuel ->
  decode_values fuel n prev file s = Err OSError \/ exists vs s' k', decode_values fuel n prev file s = Ok (vs, s') /\ good file s' k' /\ List.length vs = n.
Proof.
  induction n as [|n IH]; intros fuel prev s k Hg Hf; cbn [decode_values]; [right; exists [], s, k; auto|].
  unfold next_value. destruct (value_total file fuel s k 0 Hg ltac:(lia)) as (v & s' & k' & E & Hg' & Hk). rewrite E. cbn [rbind].
  destruct v as [v|]; [|now left]. destruct (IH fuel (Z.land (prev + Z.land v 255) 255) s' k' Hg' Hf) as [E2|(vs & s2 & k2 & E2 & Hg2 & Hl)]; rewrite E2; cbn [rbind fst snd]; [now left|].
  right. eexists _, s2, k2. split; [reflexivity|]. split; [assumption|]. cbn [List.length]. now rewrite Hl.
Qed.
Lemma sync_total file : Forall is_byte file -> forall fuel s q, good file s (8 * q) -> List.length file < q + fuel ->
  (exists s', find_sync fuel file s = Ok (false, s')) \/ exists s' q', find_sync fuel file s = Ok (true, s') /\ good file s' (8 * q').
Proof.
  intros Hb. induction fuel as [|fuel IH]; intros s q Hg Hf; [pose proof (good_le _ _ _ Hg); lia|]. cbn [find_sync].
  destruct (le_lt_dec (q + 4) (List.length file)) as [Hle|Hlt].
  - destruct (step_sync file s q Hb Hg Hle) as (w & s' & E & Hg' & Hw). rewrite E. destruct (w =? PREDSYNC)%Z; [right; eauto|]. apply (IH _ (S q)); [now apply rewind_good|lia].
  - destruct (sync_none file 32 0%Z s _ Hg ltac:(lia)) as (s' & E & _). rewrite E. left. eauto.
Qed.
Lemma decode_total file w : Forall is_byte file -> List.length file mod 4 = 0 -> forall fuel s q, good file s (8 * q) -> 8 * List.length file + 32 <= fuel ->
  decode_x fuel w file s = Err OSError \/ exists vs s' q', decode_x fuel w file s = Ok (vs, s') /\ good file s' (8 * q').
Proof.
  intros Hb Hm fuel s q Hg Hf. unfold decode_x. destruct (sync_total file Hb fuel s q Hg ltac:(lia)) as [[s1 E1]|(s1 & q1 & E1 & Hg1)]; rewrite E1; cbn [rbind fst snd negb]; [now left|].
  destruct (values_total file w fuel 0%Z s1 _ Hg1 ltac:(lia)) as [E2|(vs & s2 & k & E2 & Hg2 & Hl)]; rewrite E2; cbn [rbind fst snd]; [now left|].
  pose proof (div_up_8 k) as [U1 U2]. pose proof (good_le _ _ _ Hg2) as Hle.
  destruct (skip_bits file fuel s2 k ((k + 7) / 8) Hg2) as (s3 & E3 & Hg3); [lia..|]. rewrite E3. cbn [rbind].
  set (e := (k + 7) / 8) in *. pose proof (Nat.div_mod_eq (List.length file) 4) as D.
  pose proof (Nat.div_mod_eq (e + 3) 4) as D'. pose proof (Nat.mod_upper_bound (e + 3) 4).
  destruct (skip_words file fuel s3 _ ((e + 3) / 4) Hg3) as (s4 & E4 & Hg4); [lia..| |].
  { left. rewrite Nat.mul_comm. apply Nat.mod_mul. lia. }
  rewrite E4. cbn [rbind]. right. exists vs, s4, (4 * ((e + 3) / 4)). split; [reflexivity|]. now replace (8 * (4 * ((e + 3) / 4))) with (32 * ((e + 3) / 4)) by lia.
Qed.
Lemma groups_total file w : Forall is_byte file -> List.length file mod 4 = 0 -> forall n fuel s q, good file s (8 * q) -> 8 * List.length file + 32 <= fuel ->
  groups fuel n w file s = Err OSError \/ exists out, groups fuel n w file s = Ok out.
Proof.
  intros Hb Hm. induction n as [|n IH]; intros fuel s q Hg Hf; cbn [groups]; [right; eauto|]. destruct (List.length file <=? pos s); [right; eauto|].
  destruct (decode_total file (8 * w / 4) Hb Hm fuel s q Hg Hf) as [E1|(a & s1 & q1 & E1 & Hg1)]; rewrite E1; cbn [rbind fst snd]; [now left|].
  destruct (decode_total file (8 * w / 4) Hb Hm fuel s1 q1 Hg1 Hf) as [E2|(b & s2 & q2 & E2 & Hg2)]; rewrite E2; cbn [rbind fst snd]; [now left|].
  destruct (decode_total file (8 * w / 4) Hb Hm fuel s2 q2 Hg2 Hf) as [E3|(c & s3 & q3 & E3 & Hg3)]; rewrite E3; cbn [rbind fst snd]; [now left|].
  destruct (decode_total file (8 * w / 4) Hb Hm fuel s3 q3 Hg3 Hf) as [E4|(d & s4 & q4 & E4 & Hg4)]; rewrite E4; cbn [rbind fst snd]; [now left|].
  destruct (IH fuel s4 q4 Hg4 Hf) as [E5|(out & E5)]; rewrite E5; cbn [rbind]; [now left|]. right. eauto.
Qed.
Lemma groups_len file w : Nat.even w = true -> forall n fuel s out, groups fuel n w file s = Ok out -> exists m, m <= n /\ List.length out = 8 * w * m.
Proof.
  intros Hev. induction n as [|n IH]; intros fuel s out H; cbn [groups] in H; [injection H as <-; exists 0; cbn [List.length]; lia|].
  destruct (List.length file <=? pos s); [injection H as <-; exists 0; cbn [List.length]; lia|].
  destruct (decode_x fuel (8 * w / 4) file s) as [[a s1]|e]; cbn [rbind fst snd] in H; [|discriminate].
  destruct (decode_x fuel (8 * w / 4) file s1) as [[b s2]|e]; cbn [rbind fst snd] in H; [|discriminate].
  destruct (decode_x fuel (8 * w / 4) file s2) as [[c s3]|e]; cbn [rbind fst snd] in H; [|discriminate].
  destruct (decode_x fuel (8 * w / 4) file s3) as [[d s4]|e]; cbn [rbind fst snd] in H; [|discriminate].
  destruct (groups fuel n w file s4) as [rest|e] eqn:E; cbn [rbind] in H; [|discriminate]. injection H as <-. destruct (IH _ _ _ E) as (m & Hm & Hl).
  exists (S m). split; [lia|]. rewrite app_length, weave_len, Hl by assumption. lia.
Qed.

(** ** Headers *)
Lemma byte_at_byte l i : Forall is_byte l -> is_byte (byte_at l i).
Proof. intros H. unfold byte_at. destruct (nth_in_or_default i l 0%Z) as [Hi|Hd]; [|rewrite Hd; unfold is_byte; lia]. exact (proj1 (Forall_forall _ _) H _ Hi). Qed.
Lemma magic_ok h : Forall is_byte h -> List.length h = 64 -> (word h 15 =? HEADER_MAGIC1)%Z = true <-> skipn 60 h = [16; 16; 204; 40]%Z.
Proof.
  intros Hb Hl. assert (E : skipn 60 h = [byte_at h 60; byte_at h 61; byte_at h 62; byte_at h 63]).
  { unfold byte_at. clear - Hl. do 60 (destruct h as [|? h]; [discriminate|]). do 4 (destruct h as [|? h]; [discriminate|]). destruct h; [reflexivity|discriminate]. }
  rewrite E. unfold word, HEADER_MAGIC1. change (4 * 15 + 1) with 61. change (4 * 15 + 2) with 62. change (4 * 15 + 3) with 63. change (4 * 15) with 60. rewrite Z.eqb_eq.
  pose proof (byte_at_byte h 60 Hb). pose proof (byte_at_byte h 61 Hb). pose proof (byte_at_byte h 62 Hb). pose proof (byte_at_byte h 63 Hb). unfold is_byte in *. split.
  - intros K. assert (byte_at h 60 = 16 /\ byte_at h 61 = 16 /\ byte_at h 62 = 204 /\ byte_at h 63 = 40)%Z as (-> & -> & -> & ->) by lia. reflexivity.
  - intros [= -> -> -> ->]. reflexivity.
Qed.
Lemma header_scan file o h : Forall is_byte file -> header_at file o h -> (forall o' h', o' < o -> ~ header_at file o' h') -> forall n o', o' <= o -> o < o' + n -> read_header_from file o' n = Some h.
Proof.
  intros Hb Hh Hno. assert (Hlen : o + 64 <= List.length file).
  { destruct Hh as (<- & Hl & _). rewrite firstn_length, skipn_length in Hl. lia. }
  assert (Part : forall k, Forall is_byte (firstn 64 (skipn k file))).
  { intros k. assert (H := Hb). rewrite <- (firstn_skipn k file) in H. apply Forall_app in H as [_ H]. rewrite <- (firstn_skipn 64 (skipn k file)) in H. now apply Forall_app in H as [H _]. }
  induction n as [|n IH]; intros o' H1 H2; [lia|]. cbn [read_header_from].
  assert (L : List.length (firstn 64 (skipn o' file)) = 64) by (rewrite firstn_length, skipn_length; lia).
  rewrite L. change (64 <? 64) with false. cbn [andb].
  destruct (word (firstn 64 (skipn o' file)) 15 =? HEADER_MAGIC1)%Z eqn:E.
  - destruct (Nat.eq_dec o' o) as [->|Hne]; [destruct Hh as (-> & _); reflexivity|]. exfalso. apply (Hno o' (firstn 64 (skipn o' file))); [lia|]. split; [reflexivity|]. split; [exact L|]. now apply magic_ok.
  - destruct (Nat.eq_dec o' o) as [->|Hne]; [|apply IH; lia]. exfalso. destruct Hh as (Eh & Hl & Hm). rewrite <- Eh in Hm. apply magic_ok in Hm; [congruence|apply Part|exact L].
Qed.
Lemma header_found file o h : Forall is_byte file -> header_is file o h -> read_header file = Some h.
Proof. intros Hb (Ho & Hh & Hno). unfold read_header. apply (header_scan file o h Hb Hh Hno); lia. Qed.
Lemma byte_at_error l i b : nth_error l i = Some b -> byte_at l i = b.
Proof. intros H. unfold byte_at. now rewrite (nth_error_nth _ _ 0%Z H). Qed.
Lemma word_low h i : Z.land (word h i) 255 = (byte_at h (4 * i + 3) mod 256)%Z.
Proof. rewrite land_255. unfold word. rewrite Z.add_comm, Z.mod_add by lia. reflexivity. Qed.
Lemma word_next h i : is_byte (byte_at h (4 * i + 3)) -> Z.land (Z.shiftr (word h i) 8) 255 = (byte_at h (4 * i + 2) mod 256)%Z.
Proof.
  intros Hb. unfold is_byte in Hb. rewrite land_255, Z.shiftr_div_pow2 by lia. unfold word. change (2 ^ 8)%Z with 256%Z. rewrite Z.div_add_l, Z.div_small, Z.add_0_r by lia. rewrite Z.add_comm, Z.mod_add by lia. reflexivity.
Qed.
Lemma word_top h i : is_byte (byte_at h (4 * i + 3)) -> is_byte (byte_at h (4 * i + 2)) -> is_byte (byte_at h (4 * i + 1)) -> Z.shiftr (word h i) 24 = byte_at h (4 * i).
Proof.
  intros H3 H2 H1. unfold is_byte in *. rewrite Z.shiftr_div_pow2 by lia. unfold word. change (2 ^ 24)%Z with 16777216%Z. symmetry. apply Z.div_unique with (byte_at h (4 * i + 1) * 65536 + byte_at h (4 * i + 2) * 256 + byte_at h (4 * i + 3))%Z; lia.
Qed.
Lemma high_zero w : (Z.land w 65280 =? 0)%Z = (Z.land (Z.shiftr w 8) 255 =? 0)%Z.
Proof.
  assert (E : Z.land w 65280 = Z.shiftl (Z.land (Z.shiftr w 8) 255) 8).
  { change 65280%Z with (Z.shiftl 255 8). apply Z.bits_inj'. intros n Hn. rewrite Z.land_spec. destruct (Z_lt_ge_dec n 8).
    - rewrite !Z.shiftl_spec_low by lia. apply andb_false_r.
    - rewrite !Z.shiftl_spec, Z.land_spec, Z.shiftr_spec by lia. now replace (n - 8 + 8)%Z with n by lia. }
  rewrite E, Z.shiftl_mul_pow2 by lia. change (2 ^ 8)%Z with 256%Z. destruct (Z.eqb_spec (Z.land (Z.shiftr w 8) 255) 0) as [->|Hne]; [reflexivity|]. apply Z.eqb_neq. lia.
Qed.
Lemma size_ok n default size : is_byte n -> dimension n default size -> size_or n default = size.
Proof. intros Hb [[-> ->]|[Hn Hs]]; unfold size_or; [reflexivity|]. apply Z.eqb_neq in Hn. rewrite Hn. lia. Qed.
Lemma header_ok h height_ width_ t : Forall is_byte h -> image_size h height_ width_ -> coded_as h t ->
  width (decode_header h) = width_ /\ height (decode_header h) = height_ /\ image_type (decode_header h) = t.
Proof.
  intros Hb (a & b & Ea & Eb & Da & Db) (c & d & Ec & Ed & Ht). unfold decode_header. cbn [width height image_type].
  pose proof (byte_at_byte h) as Hby.
  assert (B : forall i, (byte_at h i mod 256)%Z = byte_at h i) by (intros i; apply Z.mod_small; apply Hby; assumption).
  rewrite !word_next, !word_low, high_zero, word_next, !B by (now apply Hby).
  change (4 * 5 + 3) with 23. change (4 * 5 + 2) with 22. change (4 * 8 + 3) with 35. change (4 * 8 + 2) with 34.
  rewrite (byte_at_error _ _ _ Ea), (byte_at_error _ _ _ Eb), (byte_at_error _ _ _ Ec), (byte_at_error _ _ _ Ed).
  assert (Ba : is_byte a) by (rewrite <- (byte_at_error _ _ _ Ea); now apply Hby). assert (Bb : is_byte b) by (rewrite <- (byte_at_error _ _ _ Eb); now apply Hby).
  split; [now apply size_ok|]. split; [now apply size_ok|]. destruct t.
  - destruct Ht as [-> ->]. reflexivity.
  - destruct Ht as [-> Hd]. apply Z.eqb_neq in Hd. now rewrite Hd.
  - apply Z.eqb_neq in Ht. now rewrite Ht.
Qed.
Lemma depth_ok h t : Forall is_byte h -> List.length h = 64 -> coded_as h t -> t <> JPEG -> (sixteen_bits h -> depth (decode_header h) = 2) /\ (~ sixteen_bits h -> depth (decode_header h) = 1) /\ bands (decode_header h) = 1.
Proof.
  intros Hb Hl (c & d & Ec & Ed & Ht) Hj. unfold decode_header. cbn [depth bands].
  pose proof (byte_at_byte h) as Hby.
  assert (B : forall i, (byte_at h i mod 256)%Z = byte_at h i) by (intros i; apply Z.mod_small; apply Hby; assumption).
  rewrite word_low, high_zero, word_next, !B by (now apply Hby). change (4 * 8 + 3) with 35. change (4 * 8 + 2) with 34. rewrite (byte_at_error _ _ _ Ec), (byte_at_error _ _ _ Ed).
  assert (c = 0%Z) as -> by (destruct t; [apply Ht|apply Ht|congruence]). cbn [Z.eqb].
  assert (S16 : sixteen_bits h <-> word h 9 = 255%Z).
  { assert (E : firstn 4 (skipn 36 h) = [byte_at h 36; byte_at h 37; byte_at h 38; byte_at h 39]).
    { unfold byte_at. clear - Hl. do 40 (destruct h as [|? h]; [discriminate|]). reflexivity. }
    unfold sixteen_bits. rewrite E. unfold word. change (4 * 9 + 1) with 37. change (4 * 9 + 2) with 38. change (4 * 9 + 3) with 39. change (4 * 9) with 36.
    pose proof (Hby 36 Hb). pose proof (Hby 37 Hb). pose proof (Hby 38 Hb). pose proof (Hby 39 Hb). unfold is_byte in *. split.
    - intros [= -> -> -> ->]. reflexivity.
    - intros H3. assert (byte_at h 36 = 0 /\ byte_at h 37 = 0 /\ byte_at h 38 = 0 /\ byte_at h 39 = 255)%Z as (-> & -> & -> & ->) by lia. reflexivity. }
  rewrite S16. destruct (Z.eqb_spec (word h 9) 255) as [E|E]; destruct (d =? 0)%Z; (split; [|split]); intros; congruence.
Qed.
Lemma thumb_ok h : Forall is_byte h -> List.length h = 64 -> is_thumbnail h <-> thumbnail (decode_header h) = true.
Proof.
  intros Hb Hl. unfold decode_header. cbn [thumbnail]. pose proof (byte_at_byte h) as Hby. rewrite word_top by (now apply Hby). change (4 * 0) with 0.
  assert (E0 : nth_error h 0 = Some (byte_at h 0)) by (destruct h; [discriminate|reflexivity]).
  assert (F : (Z.land (byte_at h 0) 8 =? 0)%Z = negb (Z.testbit (byte_at h 0) 3)).
  { destruct (Z.testbit (byte_at h 0) 3) eqn:E.
    - apply Z.eqb_neq. intros H. assert (Z.testbit (Z.land (byte_at h 0) 8) 3 = true) by (rewrite Z.land_spec, E; reflexivity). rewrite H in H0. discriminate.
    - apply Z.eqb_eq. apply Z.bits_inj. intros n. rewrite Z.land_spec, Z.bits_0. change 8%Z with (2 ^ 3)%Z. destruct (Z.eq_dec n 3) as [->|Hn]; [now rewrite E|].
      destruct (Z_lt_ge_dec n 0); [rewrite Z.testbit_neg_r by lia; reflexivity|]. rewrite Z.pow2_bits_false by lia. apply andb_false_r. }
  rewrite F, negb_involutive. unfold is_thumbnail. rewrite E0. split; [intros (a & E1 & H); injection E1 as <-; exact H|eauto].
Qed.
