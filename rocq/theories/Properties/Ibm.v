(** Property C53: IBM System/360 reals. *)
From Coq Require Import QArith Qabs Qpower Lqa.
From Verif.Base Require Import Float Py.
From Verif.Model Require Import Ibm.
From Verif.Spec Require Import Ibm.
Open Scope Z_scope.

Lemma word_fields fb s e f : fields_ok fb s e f -> let w := ibm_word fb s e f in
  N.land (N.shiftr w (fb + 7)) 1 = s /\ N.land (N.shiftr w fb) 127 = e /\ N.land w (2 ^ fb - 1) = f.
Proof.
  intros (Hs & He & Hf) w. assert (P : (0 < 2 ^ fb)%N) by (apply N.neq_0_lt_0, N.pow_nonzero; lia).
  assert (D : (w / 2 ^ fb = s * 128 + e)%N).
  { unfold w, ibm_word. rewrite N.pow_add_r. change (2 ^ 7)%N with 128%N.
    replace (s * (2 ^ fb * 128) + e * 2 ^ fb + f)%N with (f + (s * 128 + e) * 2 ^ fb)%N by lia.
    rewrite N.div_add by lia. rewrite N.div_small by assumption. lia. }
  change 1%N with (N.ones 1) at 1. change 127%N with (N.ones 7). rewrite <- N.pred_sub, <- N.ones_equiv.
  rewrite !N.land_ones, !N.shiftr_div_pow2. rewrite N.pow_add_r, <- N.div_div by (try lia; apply N.pow_nonzero; lia).
  rewrite D. change (2 ^ 7)%N with 128%N. change (2 ^ 1)%N with 2%N. repeat split.
  - rewrite N.div_add_l by lia. rewrite N.div_small by assumption. rewrite N.add_0_r. now apply N.mod_small.
  - rewrite N.add_comm, N.mod_add by lia. now apply N.mod_small.
  - unfold w, ibm_word. rewrite N.pow_add_r. change (2 ^ 7)%N with 128%N.
    replace (s * (2 ^ fb * 128) + e * 2 ^ fb + f)%N with (f + (s * 128 + e) * 2 ^ fb)%N by lia.
    rewrite N.mod_add by lia. now apply N.mod_small.
Qed.
Lemma word_exists fb w : (w < 2 ^ (fb + 8))%N -> exists s e f, fields_ok fb s e f /\ w = ibm_word fb s e f.
Proof.
  intros H. assert (P : (0 < 2 ^ fb)%N) by (apply N.neq_0_lt_0, N.pow_nonzero; lia).
  exists (w / 2 ^ fb / 128)%N, ((w / 2 ^ fb) mod 128)%N, (w mod 2 ^ fb)%N. split.
  - repeat split; [|apply N.mod_upper_bound; lia|apply N.mod_upper_bound; lia].
    rewrite N.pow_add_r in H. change (2 ^ 8)%N with 256%N in H. do 2 (apply N.div_lt_upper_bound; [lia|]). lia.
  - unfold ibm_word. rewrite N.pow_add_r. change (2 ^ 7)%N with 128%N.
    rewrite (N.div_mod w (2 ^ fb)) at 1 by lia. rewrite (N.div_mod (w / 2 ^ fb) 128) at 1 by lia. lia.
Qed.

(** ** Powers of two *)
Lemma two_nz : ~ (2 == 0)%Q.
Proof. discriminate. Qed.
Lemma Zpow_Qpower n : 0 <= n -> (inject_Z (2 ^ n) == Qpower 2 n)%Q.
Proof. intros H. rewrite <- (Zpower_Qpower 2 n H). reflexivity. Qed.
Lemma pow2_Qpower k : (pow2 k == Qpower 2 k)%Q.
Proof.
  unfold pow2. destruct (Z.leb_spec 0 k); [now apply Zpow_Qpower|].
  rewrite Zpow_Qpower by lia. rewrite Qpower_opp. apply Qinv_involutive.
Qed.
Lemma sixteen z : (Qpower 16 z == Qpower 2 (4 * z))%Q.
Proof. rewrite Qpower_mult. apply Qpower_comp; reflexivity. Qed.
Global Instance Qpower_proper : Proper (Qeq ==> eq ==> Qeq) Qpower.
Proof. intros a b H n m ->. now apply Qpower_comp. Qed.
Lemma dyadic_div m k n : 0 <= n -> (dyadic m k / inject_Z (2 ^ n) == dyadic m (k - n))%Q.
Proof.
  intros H. unfold dyadic, Qdiv. rewrite Zpow_Qpower by lia. unfold Z.sub. rewrite Qpower_plus by apply two_nz.
  rewrite Qpower_opp. ring.
Qed.
Lemma dyadic_scale m k n : (dyadic m k * Qpower 2 n == dyadic m (k + n))%Q.
Proof. unfold dyadic. rewrite Qpower_plus by apply two_nz. ring. Qed.
Lemma dyadic_sign s m k : (inject_Z s * dyadic m k == dyadic (s * m) k)%Q.
Proof. unfold dyadic. rewrite inject_Z_mult. ring. Qed.
Lemma dyadic_0 m : (inject_Z m == dyadic m 0)%Q.
Proof. unfold dyadic. cbn [Qpower]. ring. Qed.
Global Instance dyadic_holds_proper p a b : Proper (Qeq ==> iff) (holds_exactly p a b).
Proof.
  intros q q' E. unfold holds_exactly. split; intros (m & k & H & R); exists m, k; (split; [|exact R]); [now rewrite <- E|now rewrite E].
Qed.
Lemma number_dyadic fb s e f : (ibm_number fb s e f == dyadic ((1 - 2 * Z.of_N s) * Z.of_N f) (4 * (Z.of_N e - 64) - Z.of_N fb) \/ ~ (s < 2)%N)%Q.
Proof.
  destruct (N.lt_ge_cases s 2) as [H|H]; [left|right; lia]. unfold ibm_number.
  rewrite (dyadic_0 (Z.of_N f)), dyadic_div by lia. rewrite sixteen, <- Qmult_assoc, dyadic_scale.
  assert (S : (1 - 2 * Z.of_N s = 1 /\ (s =? 0)%N = true) \/ (1 - 2 * Z.of_N s = -1 /\ (s =? 0)%N = false)).
  { destruct (N.eqb_spec s 0); [left|right]; split; try reflexivity; lia. }
  replace (0 - Z.of_N fb + 4 * (Z.of_N e - 64)) with (4 * (Z.of_N e - 64) - Z.of_N fb) by lia.
  destruct S as [[-> ->]|[-> ->]]; rewrite <- dyadic_sign; reflexivity.
Qed.

Section Rounded.
Variable rnd : Q -> Q.
Hypothesis R : rounding double_holds rnd.
Lemma rnd_keep q m k : (q == dyadic m k)%Q -> Z.abs m < 2 ^ 53 -> -1074 <= k -> k <= 971 -> (rnd q == dyadic m k)%Q.
Proof.
  intros E Hm Hk Hk'. destruct R as [R1 R2]. rewrite (R2 _ _ E). apply R1. exists m, k.
  split; [reflexivity|]. split; [exact Hm|]. split; lia.
Qed.
(** the common part: a fraction that fits a double *)
Lemma to_np_gen fb s e f m j : In fb [24; 56]%N -> fields_ok fb s e f -> (rnd (inject_Z (Z.of_N f)) == dyadic m j)%Q -> -100 <= j <= 100 -> Z.abs m < 2 ^ 53 ->
  (ibm_to_np rnd (ibm_word fb s e f) (fb + 7) fb (2 ^ fb - 1) == dyadic ((1 - 2 * Z.of_N s) * m) (j + (4 * (Z.of_N e - 64) - Z.of_N fb)))%Q.
Proof.
  intros Hfb Hok E1 Hj Hm. destruct (word_fields fb s e f Hok) as (W1 & W2 & W3).
  destruct Hok as (Hs & He & Hff).
  unfold ibm_to_np. rewrite W1, W2, W3.
  assert (Hfb2 : Z.of_N fb = 24 \/ Z.of_N fb = 56) by (cbn in Hfb; destruct Hfb as [<-|[<-|[]]]; [now left|now right]).
  assert (E2 : (rnd (rnd (inject_Z (Z.of_N f)) / inject_Z (2 ^ Z.of_N fb)) == dyadic m (j - Z.of_N fb))%Q).
  { apply rnd_keep; [|exact Hm|lia|lia]. rewrite E1. apply dyadic_div. lia. }
  assert (E3 : (rnd (pow2 (4 * (Z.of_N e - 64))) == dyadic 1 (4 * (Z.of_N e - 64)))%Q).
  { apply rnd_keep; [|reflexivity|lia|lia]. rewrite pow2_Qpower. unfold dyadic. ring. }
  set (sg := 1 - 2 * Z.of_N s). assert (Hsg : sg = 1 \/ sg = -1) by (unfold sg; lia).
  assert (Hsm : Z.abs (sg * m) < 2 ^ 53) by (rewrite Z.abs_mul; destruct Hsg as [-> | ->]; cbn [Z.abs]; lia).
  assert (E4 : (rnd (inject_Z sg * rnd (rnd (inject_Z (Z.of_N f)) / inject_Z (2 ^ Z.of_N fb))) == dyadic (sg * m) (j - Z.of_N fb))%Q).
  { apply rnd_keep; [|exact Hsm|lia|lia]. rewrite E2. apply dyadic_sign. }
  assert (E5 : (rnd (rnd (inject_Z sg * rnd (rnd (inject_Z (Z.of_N f)) / inject_Z (2 ^ Z.of_N fb))) * rnd (pow2 (4 * (Z.of_N e - 64))))
     == dyadic (sg * m) (j - Z.of_N fb + 4 * (Z.of_N e - 64)))%Q).
  { apply rnd_keep; [|exact Hsm|lia|lia]. rewrite E4, E3. unfold dyadic at 2.
    rewrite (Qmult_assoc _ (inject_Z 1)), Qmult_1_r. apply dyadic_scale. }
  rewrite E5. replace (j - Z.of_N fb + 4 * (Z.of_N e - 64)) with (j + (4 * (Z.of_N e - 64) - Z.of_N fb)) by lia. reflexivity.
Qed.
Lemma to_np fb s e f m j : In fb [24; 56]%N -> fields_ok fb s e f -> Z.of_N f = m * 2 ^ j -> 0 <= j <= 56 -> Z.abs m < 2 ^ 53 ->
  (ibm_to_np rnd (ibm_word fb s e f) (fb + 7) fb (2 ^ fb - 1) == ibm_number fb s e f)%Q.
Proof.
  intros Hfb Hok Hf Hj Hm. rewrite (to_np_gen fb s e f m j Hfb Hok); [|apply rnd_keep; try lia|lia|exact Hm].
  - destruct (number_dyadic fb s e f) as [-> |H]; [|destruct Hok; contradiction].
    rewrite Hf. unfold dyadic. rewrite !inject_Z_mult, (Zpow_Qpower j) by lia. rewrite (Qpower_plus 2 j) by apply two_nz. ring.
  - rewrite Hf, inject_Z_mult, Zpow_Qpower by lia. reflexivity.
Qed.
End Rounded.

(** Every 32-bit pattern is converted to exactly the number it stands for,
    whatever the rounding mode of double-precision arithmetic. *)
Theorem C53_short : forall rnd, rounding double_holds rnd ->
  (forall w, (w < 2 ^ 32)%N -> exists s e f, fields_ok 24 s e f /\ w = ibm_word 24 s e f) /\
  forall s e f, fields_ok 24 s e f -> (ibm32_to_np_f32 rnd (ibm_word 24 s e f) == ibm_number 24 s e f)%Q.
Proof.
  intros rnd R. split; [intros w H; now apply word_exists|]. intros s e f H.
  apply (to_np rnd R 24 s e f (Z.of_N f) 0); [now left|exact H|lia|lia|].
  destruct H as (_ & _ & H). change (2 ^ 24)%N with 16777216%N in H. change (2 ^ 53) with 9007199254740992. lia.
Qed.
Print Assumptions C53_short.
(** 64-bit patterns: exact when the fraction fits the 53 bits of a double. *)
Theorem C53_long : forall rnd, rounding double_holds rnd ->
  (forall w, (w < 2 ^ 64)%N -> exists s e f, fields_ok 56 s e f /\ w = ibm_word 56 s e f) /\
  forall s e f m j, fields_ok 56 s e f -> Z.of_N f = m * 2 ^ j -> 0 <= j -> Z.abs m < 2 ^ 53 ->
    (ibm64_to_np_f64 rnd (ibm_word 56 s e f) == ibm_number 56 s e f)%Q.
Proof.
  intros rnd R. split; [intros w H; now apply word_exists|]. intros s e f m j H Hf Hj Hm.
  destruct (Z.le_gt_cases j 56).
  - apply (to_np rnd R 56 s e f m j); [right; now left|exact H|exact Hf|lia|exact Hm].
  - assert (f = 0%N).
    { destruct H as (_ & _ & H). change (2 ^ 56)%N with (Z.to_N (2 ^ 56)) in H.
      assert (2 ^ 57 <= 2 ^ j) by (apply Z.pow_le_mono_r; lia).
      assert (Z.of_N f < 2 ^ 56) by lia. assert (m = 0) by nia. lia. }
    subst f. apply (to_np rnd R 56 s e 0%N 0 0); [right; now left|exact H|reflexivity|lia|reflexivity].
Qed.
Print Assumptions C53_long.
Example C53_meets :
  rounding double_holds (fun q => q) /\
  fields_ok 24 1 66 (118 * 65536) /\ ibm_word 24 1 66 (118 * 65536) = 3262513152%N /\
  (ibm32_to_np_f32 (fun q => q) 3262513152 == inject_Z (-118))%Q.
Proof. split; [split; [reflexivity|auto]|]. repeat split. Qed.

(** ** What is lost *)
Lemma not_held p a b m k : 0 <= p -> Z.odd m = true -> (2 ^ p <= Z.abs m \/ k < a) -> ~ holds_exactly p a b (dyadic m k).
Proof.
  intros Hp Ho Hm (m' & k' & E & H1 & H2 & H3).
  (* m * 2^k = m' * 2^k' with m odd: k >= k' and 2^p <= |m| <= |m'| *)
  destruct (Z.le_gt_cases k' k) as [Hk|Hk].
  - (* m' = m * 2^(k-k') *)
    assert (E2 : m' = m * 2 ^ (k - k')).
    { apply inject_Z_injective. rewrite inject_Z_mult, Zpow_Qpower by lia.
      unfold dyadic in E. replace k with (k - k' + k') in E by lia. rewrite Qpower_plus in E by apply two_nz.
      rewrite Qmult_assoc in E. symmetry in E. apply Qmult_inj_r in E; [exact E|]. now apply Qpower_not_0. }
    assert (1 <= 2 ^ (k - k')) by (apply (Z.pow_le_mono_r 2 0); lia).
    destruct Hm as [Hm|Hm]; [|lia]. rewrite E2, Z.abs_mul, (Z.abs_eq (2 ^ (k - k'))) in H1 by lia. nia.
  - (* m = m' * 2^(k'-k), even *)
    assert (E2 : m = m' * 2 ^ (k' - k)).
    { apply inject_Z_injective. rewrite inject_Z_mult, Zpow_Qpower by lia.
      unfold dyadic in E. replace k' with (k' - k + k) in E by lia. rewrite (Qpower_plus 2 (k' - k)) in E by apply two_nz.
      rewrite (Qmult_assoc (inject_Z m')) in E. apply Qmult_inj_r in E; [exact E|]. now apply Qpower_not_0. }
    replace (k' - k) with (Z.succ (k' - k - 1)) in E2 by lia. rewrite Z.pow_succ_r in E2 by lia.
    rewrite E2 in Ho. rewrite !Z.odd_mul in Ho. cbn [Z.odd] in Ho. rewrite andb_false_r in Ho. discriminate.
Qed.
(** Not every 64-bit pattern stands for a number a double can hold, so the
    conversion of the long form is not exact. *)
Theorem C53_long_refuted : exists s e f, fields_ok 56 s e f /\ ~ double_holds (ibm_number 56 s e f).
Proof.
  exists 0%N, 64%N, (2 ^ 56 - 1)%N. split; [repeat split|].
  destruct (number_dyadic 56 0 64 (2 ^ 56 - 1)) as [E|E]; [|now destruct E].
  unfold double_holds. rewrite E. apply not_held; [lia|reflexivity|left; discriminate].
Qed.
Print Assumptions C53_long_refuted.
(** Columns of 4-byte reals are cast down to single precision when all values are
    between 1e-44 and the largest single; the values below 2^-126 in that range
    lose bits, although the check is meant to make the cast safe. *)
Theorem C53_cast_refuted : exists w, (w < 2 ^ 32)%N /\ forall rnd64 rnd32, rounding double_holds rnd64 ->
  exists q, (ibm32_to_np_f32 rnd64 w == q)%Q /\ convert_ibm_column rnd64 rnd32 4 [w] = [rnd32 (ibm32_to_np_f32 rnd64 w)] /\
    ~ single_holds q.
Proof.
  assert (H : fields_ok 24 0 32 (2 ^ 24 - 1)) by (repeat split).
  exists (ibm_word 24 0 32 (2 ^ 24 - 1)). split; [reflexivity|]. intros rnd64 rnd32 R.
  destruct (C53_short rnd64 R) as [_ S]. specialize (S _ _ _ H). eexists. split; [exact S|]. split.
  - unfold convert_ibm_column, too_wide. cbn [Z.eqb Pos.eqb map existsb]. rewrite !orb_false_r.
    set (x := ibm32_to_np_f32 rnd64 (ibm_word 24 0 32 (2 ^ 24 - 1))) in *.
    assert (E1 : Qle_bool (Qabs x) f32_max = true) by (apply Qle_bool_iff; rewrite S; vm_compute; discriminate).
    assert (E2 : Qle_bool tiny (Qabs x) = true) by (apply Qle_bool_iff; rewrite S; vm_compute; discriminate).
    rewrite E1, E2. cbn [negb]. rewrite andb_false_r. reflexivity.
  - destruct (number_dyadic 24 0 32 (2 ^ 24 - 1)) as [E|E]; [|now destruct E].
    unfold single_holds. rewrite E. apply not_held; [lia|reflexivity|right; reflexivity].
Qed.
Print Assumptions C53_cast_refuted.
(** Otherwise the column is exact: out of the single range no cast happens, and
    values a single can hold survive it. *)
Theorem C53_column : forall rnd64 rnd32, rounding double_holds rnd64 -> rounding single_holds rnd32 ->
  forall ws, Forall (fun w => w < 2 ^ 32)%N ws ->
  Forall (fun w => exists s e f, fields_ok 24 s e f /\ w = ibm_word 24 s e f /\ single_holds (ibm_number 24 s e f)) ws ->
  Forall2 (fun w q => exists s e f, fields_ok 24 s e f /\ w = ibm_word 24 s e f /\ (q == ibm_number 24 s e f)%Q)
    ws (convert_ibm_column rnd64 rnd32 4 ws).
Proof.
  intros rnd64 rnd32 R R' ws _ H. destruct (C53_short rnd64 R) as [_ S].
  unfold convert_ibm_column, too_wide. cbn [Z.eqb Pos.eqb].
  destruct (existsb _ _ || existsb _ _).
  - induction H as [|w ws (s & e & f & H1 & -> & H2) _ IH]; cbn [map]; constructor; [|exact IH].
    exists s, e, f. split; [exact H1|]. split; [reflexivity|]. now apply S.
  - rewrite map_map. induction H as [|w ws (s & e & f & H1 & -> & H2) _ IH]; cbn [map]; constructor; [|exact IH].
    exists s, e, f. split; [exact H1|]. split; [reflexivity|]. destruct R' as [R1 R2].
    rewrite (R2 _ _ (S _ _ _ H1)). now apply R1.
Qed.
Print Assumptions C53_column.
Theorem C53_column_uncast : forall rnd64 rnd32, rounding double_holds rnd64 ->
  forall ws, Forall (fun w => w < 2 ^ 32)%N ws ->
  (exists s e f, fields_ok 24 s e f /\ In (ibm_word 24 s e f) ws /\
     (f32_max < Qabs (ibm_number 24 s e f) \/ (~ ibm_number 24 s e f == 0 /\ Qabs (ibm_number 24 s e f) < tiny))%Q) ->
  Forall2 (fun w q => exists s e f, fields_ok 24 s e f /\ w = ibm_word 24 s e f /\ (q == ibm_number 24 s e f)%Q)
    ws (convert_ibm_column rnd64 rnd32 4 ws).
Proof.
  intros rnd64 rnd32 R ws Hw (s & e & f & H1 & H2 & H3). destruct (C53_short rnd64 R) as [X S].
  unfold convert_ibm_column, too_wide. cbn [Z.eqb Pos.eqb].
  assert (E : existsb (fun q => negb (Qle_bool (Qabs q) f32_max)) (map (ibm32_to_np_f32 rnd64) ws) ||
    existsb (fun q => negb (Qeq_bool q 0) && negb (Qle_bool tiny (Qabs q))) (map (ibm32_to_np_f32 rnd64) ws) = true).
  { apply orb_true_iff. assert (I := in_map (ibm32_to_np_f32 rnd64) _ _ H2). assert (Sx := S _ _ _ H1).
    destruct H3 as [H3|[H3 H4]]; [left|right]; apply existsb_exists; eexists; (split; [exact I|]).
    - apply negb_true_iff, not_true_iff_false. rewrite Qle_bool_iff, Sx. now apply Qlt_not_le.
    - apply andb_true_iff. split; apply negb_true_iff, not_true_iff_false.
      + rewrite Qeq_bool_iff, Sx. exact H3.
      + rewrite Qle_bool_iff, Sx. now apply Qlt_not_le. }
  rewrite E. clear E H1 H2 H3 s e f. induction Hw as [|w ws Hw _ IH]; cbn [map]; constructor; [|exact IH].
  destruct (X w Hw) as (s & e & f & H1 & ->). exists s, e, f. split; [exact H1|]. split; [reflexivity|]. now apply S.
Qed.
Print Assumptions C53_column_uncast.
(** The converter is chosen by the width of the whole column, not of its items:
    4-byte items of an 8-byte column are read as the long form (numpy 1 promotes the
    operands as modelled; numpy 2 raises OverflowError on the 56-bit mask). *)
Theorem C53_items_refuted : forall rnd64 rnd32, rounding double_holds rnd64 ->
  exists s e f q, fields_ok 24 s e f /\
    convert_ibm_column rnd64 rnd32 8 [ibm_word 24 s e f] = [q] /\ ~ (q == ibm_number 24 s e f)%Q.
Proof.
  intros rnd64 rnd32 R. exists 0%N, 65%N, (2 ^ 20)%N. eexists. split; [repeat split|]. split; [reflexivity|].
  assert (E : ibm_word 24 0 65 (2 ^ 20) = ibm_word 56 0 0 (65 * 2 ^ 24 + 2 ^ 20)) by reflexivity.
  rewrite E. assert (Hok : fields_ok 56 0 0 (65 * 2 ^ 24 + 2 ^ 20)) by (repeat split).
  destruct (C53_long rnd64 R) as [_ L].
  rewrite (L 0%N 0%N (65 * 2 ^ 24 + 2 ^ 20)%N (65 * 2 ^ 24 + 2 ^ 20) 0 Hok); [|reflexivity|lia|reflexivity].
  vm_compute. discriminate.
Qed.
Print Assumptions C53_items_refuted.

(** numpy's roundings are such: round to nearest, ties to even *)
Theorem C53_ieee : rounding double_holds round64 /\ rounding single_holds round32.
Proof.
  split; (split; [|intros q q' E; now apply round_ne_proper]); intros q (m & k & E & M & K & _); apply round_ne_exact; now exists m, k.
Qed.
Print Assumptions C53_ieee.

(** ** Long reals: numpy's result is the double nearest to the number *)
Lemma round_int_dyadic f : 0 < f < 2 ^ 56 -> exists m j, (round64 (inject_Z f) == dyadic m j)%Q /\ Z.abs m < 2 ^ 53 /\ -100 <= j <= 100 /\
  (forall e, e <= -1074 -> (round_ne 53 e (inject_Z f) == round64 (inject_Z f))%Q).
Proof.
  intros Hf. assert (N : ~ (inject_Z f == 0)%Q) by (unfold Qeq; cbn; lia).
  assert (Eb : Qeq_bool (inject_Z f) 0 = false) by (apply not_true_iff_false; now rewrite Qeq_bool_iff).
  destruct (ilog2_spec _ N) as [L1 L2]. rewrite Qabs_pos in L1, L2 by (unfold Qle; cbn; lia).
  set (i := ilog2 (inject_Z f)) in *.
  assert (Hi : 0 <= i <= 55).
  { split.
    - destruct (Z.le_gt_cases 0 i) as [|H]; [assumption|]. exfalso.
      assert (two_to (i + 1) <= two_to 0)%Q by (apply two_to_le; lia). assert (E : (two_to 0 == 1)%Q) by reflexivity. rewrite E in H0.
      assert (inject_Z f < inject_Z 1)%Q by (change (inject_Z 1) with 1%Q; lra). rewrite <- Zlt_Qlt in H1. lia.
    - destruct (Z.le_gt_cases i 55) as [|H]; [assumption|]. exfalso.
      assert (two_to 56 <= two_to i)%Q by (apply two_to_le; lia). rewrite two_to_Z in H0 by lia.
      assert (inject_Z (2 ^ 56) <= inject_Z f)%Q by lra. rewrite <- Zle_Qle in H1. lia. }
  assert (Hk : forall e, e <= -1074 -> last_bit 53 e (inject_Z f) = i - 52) by (intros e He; unfold last_bit; fold i; lia).
  set (h := half_even (inject_Z f / two_to (i - 52))).
  assert (R : forall e, e <= -1074 -> round_ne 53 e (inject_Z f) = (inject_Z h * two_to (i - 52))%Q).
  { intros e He. unfold round_ne. rewrite Eb, (Hk e He). reflexivity. }
  assert (Hh : 0 <= h <= 2 ^ 53).
  { pose proof (half_even_near (inject_Z f / two_to (i - 52))) as B. fold h in B. apply Qabs_Qle_condition in B as [B1 B2].
    assert (X : (0 < inject_Z f / two_to (i - 52) < inject_Z (2 ^ 53))%Q).
    { pose proof (two_to_pos (i - 52)). split.
      - apply Qlt_shift_div_l; [assumption|]. rewrite Qmult_0_l. unfold Qlt. cbn. lia.
      - apply Qlt_shift_div_r; [assumption|]. rewrite <- (two_to_Z 53) by lia. rewrite <- two_to_add. replace (53 + (i - 52)) with (i + 1) by lia. exact L2. }
    split.
    - assert (inject_Z (-1) < inject_Z h)%Q by (change (inject_Z (-1)) with (-1)%Q; lra). rewrite <- Zlt_Qlt in H. lia.
    - assert (inject_Z h < inject_Z (2 ^ 53) + 1)%Q by lra. assert (inject_Z h < inject_Z (2 ^ 53 + 1))%Q by (rewrite inject_Z_plus; exact H).
      rewrite <- Zlt_Qlt in H0. lia. }
  destruct (Z.eq_dec h (2 ^ 53)) as [Eh|Nh].
  - exists (2 ^ 52), (i - 51). split; [|split; [reflexivity|split; [lia|]]].
    + unfold round64. rewrite R by lia. rewrite Eh. unfold dyadic. fold (two_to (i - 51)).
      change (2 ^ 53) with (2 ^ 52 * 2). rewrite inject_Z_mult. replace (i - 51) with (i - 52 + 1) by lia. rewrite two_to_add.
      change (two_to 1) with (2 # 1)%Q. change (inject_Z 2) with (2 # 1)%Q. ring.
    + intros e He. unfold round64. now rewrite !R by lia.
  - exists h, (i - 52). split; [|split; [lia|split; [lia|]]].
    + unfold round64. rewrite R by lia. reflexivity.
    + intros e He. unfold round64. now rewrite !R by lia.
Qed.
Theorem C53_long_nearest : forall s e f, fields_ok 56 s e f ->
  let q := ibm64_to_np_f64 round64 (ibm_word 56 s e f) in
  on_grid 53 (-1074) q /\ forall y, on_grid 53 (-1074) y -> (Qabs (q - ibm_number 56 s e f) <= Qabs (y - ibm_number 56 s e f))%Q.
Proof.
  intros s e f Hok. cbv zeta. destruct C53_ieee as [R _].
  assert (Hs : (s < 2)%N) by apply Hok. assert (He : (e < 128)%N) by apply Hok. assert (Hf : (f < 2 ^ 56)%N) by apply Hok.
  destruct (number_dyadic 56 s e f) as [En|]; [|contradiction].
  destruct (N.eq_dec f 0) as [Ef|Nf].
  { assert (E : (ibm64_to_np_f64 round64 (ibm_word 56 s e f) == ibm_number 56 s e f)%Q).
    { apply (proj2 (C53_long round64 R) s e f 0 0 Hok); [subst f; reflexivity|lia|reflexivity]. }
    split.
    - exists 0, 0. rewrite E, En, Ef. split; [unfold dyadic, two_to; rewrite Z.mul_0_r; ring|]. split; [reflexivity|lia].
    - intros y _. assert (Z0 : (ibm64_to_np_f64 round64 (ibm_word 56 s e f) - ibm_number 56 s e f == 0)%Q) by (rewrite E; ring).
      rewrite Z0. apply Qabs_nonneg. }
  destruct (round_int_dyadic (Z.of_N f)) as (m & j & E1 & Hm & Hj & Hall).
  { split; [lia|]. change (2 ^ 56) with (Z.of_N (2 ^ 56)). lia. }
  assert (E := to_np_gen round64 R 56 s e f m j (or_intror (or_introl eq_refl)) Hok E1 Hj Hm).
  change (ibm_to_np round64 (ibm_word 56 s e f) (56 + 7) 56 (2 ^ 56 - 1)) with (ibm64_to_np_f64 round64 (ibm_word 56 s e f)) in E.
  set (q := ibm64_to_np_f64 round64 (ibm_word 56 s e f)) in *. clearbody q.
  change (Z.of_N 56) with 56 in *. set (K := 4 * (Z.of_N e - 64) - 56) in *. set (sg := 1 - 2 * Z.of_N s) in *.
  assert (Hsg : sg = 1 \/ sg = -1) by (unfold sg; lia).
  assert (HK : -312 <= K <= 196) by (unfold K; lia).
  split.
  { exists (sg * m), (j + K). split; [exact E|]. split; [|lia]. destruct Hsg as [-> | ->]; lia. }
  intros y (my & ky & Ey & Hmy & Hky).
  (* divide by the sign and 2^K *)
  assert (G : (Qabs (round64 (inject_Z (Z.of_N f)) - inject_Z (Z.of_N f)) <= Qabs (inject_Z (sg * my) * two_to (ky - K) - inject_Z (Z.of_N f)))%Q).
  { rewrite <- (Hall (-2000) ltac:(lia)). apply round_ne_nearest; [lia|]. exists (sg * my), (ky - K). split; [reflexivity|].
    split; [destruct Hsg as [-> | ->]; lia|lia]. }
  assert (P := two_to_pos K).
  assert (T : forall x z : Q, (Qabs (inject_Z sg * (x - z) * two_to K) == Qabs (x - z) * two_to K)%Q).
  { intros x z. rewrite !Qabs_Qmult. rewrite (Qabs_pos (two_to K)) by lra.
    assert (A : (Qabs (inject_Z sg) == 1)%Q) by (destruct Hsg as [-> | ->]; reflexivity). rewrite A. ring. }
  assert (S2 : (inject_Z sg * inject_Z sg == 1)%Q) by (destruct Hsg as [-> | ->]; reflexivity).
  assert (Q1 : (q - ibm_number 56 s e f == inject_Z sg * (round64 (inject_Z (Z.of_N f)) - inject_Z (Z.of_N f)) * two_to K)%Q).
  { rewrite E, En, E1. unfold dyadic, two_to. rewrite !inject_Z_mult, Qpower_plus by apply two_nz. ring. }
  assert (Q2 : (y - ibm_number 56 s e f == inject_Z sg * (inject_Z (sg * my) * two_to (ky - K) - inject_Z (Z.of_N f)) * two_to K)%Q).
  { rewrite Ey, En. unfold dyadic. fold (two_to K). replace (two_to ky) with (two_to ((ky - K) + K)) by (f_equal; lia).
    rewrite two_to_add, !inject_Z_mult.
    transitivity ((inject_Z sg * inject_Z sg) * inject_Z my * (two_to (ky - K) * two_to K) - inject_Z sg * inject_Z (Z.of_N f) * two_to K)%Q; [rewrite S2; ring|ring]. }
  rewrite Q1, Q2, !T. apply Qmult_le_compat_r; [exact G|lra].
Qed.
Print Assumptions C53_long_nearest.
Lemma long_bound s e f : fields_ok 56 s e f -> (Qabs (ibm64_to_np_f64 round64 (ibm_word 56 s e f)) <= inject_Z (2 ^ 253))%Q.
Proof.
  intros Hok. destruct (C53_long_nearest s e f Hok) as [_ N].
  assert (Z : on_grid 53 (-1074) 0) by (exists 0, 0; repeat split; reflexivity || discriminate || lia).
  specialize (N 0%Q Z). destruct Hok as (Hs & He & Hf). destruct (number_dyadic 56 s e f) as [En|H]; [|contradiction].
  set (q := ibm64_to_np_f64 round64 (ibm_word 56 s e f)) in *. set (n := ibm_number 56 s e f) in *. clearbody q.
  assert (B : (Qabs n <= inject_Z (2 ^ 252))%Q).
  { rewrite En. unfold dyadic. rewrite Qabs_Qmult. change (Z.of_N 56) with 56. set (K := 4 * (Z.of_N e - 64) - 56). fold (two_to K).
    rewrite (Qabs_pos (two_to K)) by apply Qlt_le_weak, two_to_pos.
    assert (L : (two_to K <= two_to 196)%Q) by (apply two_to_le; unfold K; lia).
    assert (F : (Qabs (inject_Z ((1 - 2 * Z.of_N s) * Z.of_N f)) <= inject_Z (2 ^ 56))%Q).
    { change (Qabs (inject_Z ?x)) with (inject_Z (Z.abs x)). rewrite <- Zle_Qle. change (2 ^ 56) with (Z.of_N (2 ^ 56)). assert (s = 0 \/ s = 1)%N as [-> | ->] by lia; lia. }
    apply (Qle_trans _ (inject_Z (2 ^ 56) * two_to K)); [apply Qmult_le_compat_r; [exact F|apply Qlt_le_weak, two_to_pos]|].
    rewrite Qmult_comm. apply (Qle_trans _ (two_to 196 * inject_Z (2 ^ 56))); [apply Qmult_le_compat_r; [exact L|discriminate]|]. vm_compute. discriminate. }
  assert (T : (inject_Z (2 ^ 253) == inject_Z (2 ^ 252) + inject_Z (2 ^ 252))%Q) by reflexivity. rewrite T.
  assert (A : (q == (q - n) + n)%Q) by ring. rewrite A. eapply Qle_trans; [apply Qabs_triangle|].
  assert (N' : (Qabs (0 - n) == Qabs n)%Q) by (rewrite <- (Qabs_opp n); apply Qabs_wd; ring). rewrite N' in N. lra.
Qed.
