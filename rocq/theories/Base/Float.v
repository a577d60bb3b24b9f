(** Base layer: IEEE 754 rounding (to nearest, ties to even) of exact rationals to a
    binary format, and its correctness.  Nothing here models pdr. *)
From Coq Require Import QArith Qabs Qround Qpower Lqa Lia ZArith.
From Verif.Base Require Import Py.
Open Scope Z_scope.

Definition two_to (k : Z) : Q := Qpower 2 k.
(** the integer nearest to [x], the even one of two *)
Definition half_even (x : Q) : Z :=
  let f := Qfloor x in
  match Qcompare (x - inject_Z f) (1 # 2) with
  | Lt => f
  | Gt => f + 1
  | Eq => if Z.even f then f else f + 1
  end.
(** the exponent of the leading bit of [q] (not 0) *)
Definition ilog2 (q : Q) : Z :=
  let l := Z.log2 (Z.abs (Qnum q)) - Z.log2 (Zpos (Qden q)) in
  if Qle_bool (two_to l) (Qabs q) then l else l - 1.
(** the exponent of the last bit kept: [p] bits, but none below 2^emin *)
Definition last_bit (p emin : Z) (q : Q) : Z := Z.max (ilog2 q - (p - 1)) emin.
Definition round_ne (p emin : Z) (q : Q) : Q :=
  if Qeq_bool q 0 then 0
  else let k := last_bit p emin q in inject_Z (half_even (q / two_to k)) * two_to k.
Definition round64 : Q -> Q := round_ne 53 (-1074).
Definition round32 : Q -> Q := round_ne 24 (-149).

(** m * 2^k with |m| < 2^p and k >= emin *)
Definition on_grid (p emin : Z) (q : Q) : Prop :=
  exists m k, (q == inject_Z m * two_to k)%Q /\ Z.abs m < 2 ^ p /\ emin <= k.

Lemma two_to_pos k : (0 < two_to k)%Q.
Proof. apply Qpower_0_lt. reflexivity. Qed.
Lemma two_to_nz k : ~ (two_to k == 0)%Q.
Proof. pose proof (two_to_pos k). lra. Qed.
Lemma two_to_add a b : (two_to (a + b) == two_to a * two_to b)%Q.
Proof. apply Qpower_plus. discriminate. Qed.
Lemma two_to_Z n : 0 <= n -> (two_to n == inject_Z (2 ^ n))%Q.
Proof. intros H. unfold two_to. rewrite <- (Zpower_Qpower 2 n H). reflexivity. Qed.
Lemma two_to_le a b : a <= b -> (two_to a <= two_to b)%Q.
Proof.
  intros H. replace b with (a + (b - a)) by lia. rewrite two_to_add, (two_to_Z (b - a)) by lia.
  assert (1 <= 2 ^ (b - a)) by (apply (Z.pow_le_mono_r 2 0); lia).
  apply inject_Z_le in H0 || rewrite Zle_Qle in H0. pose proof (two_to_pos a). change (inject_Z 1) with 1%Q in H0. nra.
Qed.
Lemma two_to_lt a b : a < b -> (two_to a < two_to b)%Q.
Proof.
  intros H. apply Qlt_le_trans with (two_to (a + 1)); [|apply two_to_le; lia].
  rewrite two_to_add. pose proof (two_to_pos a). change (two_to 1) with 2%Q. lra.
Qed.

Lemma half_even_near x : (Qabs (inject_Z (half_even x) - x) <= 1 # 2)%Q.
Proof.
  unfold half_even. pose proof (Qfloor_le x) as L. pose proof (Qlt_floor x) as U. rewrite inject_Z_plus in U.
  change (inject_Z 1) with 1%Q in U. set (f := Qfloor x) in *.
  apply Qabs_Qle_condition.
  destruct (Qcompare_spec (x - inject_Z f) (1 # 2)) as [E|E|E].
  - destruct (Z.even f); rewrite ?inject_Z_plus; change (inject_Z 1) with 1%Q; split; lra.
  - split; lra.
  - rewrite inject_Z_plus. change (inject_Z 1) with 1%Q. split; lra.
Qed.
Global Instance half_even_proper : Proper (Qeq ==> eq) half_even.
Proof.
  intros x y E. unfold half_even. rewrite (Qfloor_comp _ _ E).
  assert (C : (x - inject_Z (Qfloor y) == y - inject_Z (Qfloor y))%Q) by (rewrite E; reflexivity).
  rewrite (Qcompare_comp _ _ C (1 # 2) (1 # 2) (Qeq_refl _)). reflexivity.
Qed.
Lemma half_even_Z z : half_even (inject_Z z) = z.
Proof.
  unfold half_even. rewrite Qfloor_Z.
  destruct (Qcompare_spec (inject_Z z - inject_Z z) (1 # 2)) as [E|E|E]; [| |exfalso]; try reflexivity; lra.
Qed.
(** no integer is nearer *)
Lemma half_even_nearest x n : (Qabs (inject_Z (half_even x) - x) <= Qabs (inject_Z n - x))%Q.
Proof.
  destruct (Z.eq_dec n (half_even x)) as [->|N]; [apply Qle_refl|].
  pose proof (half_even_near x) as H. set (h := half_even x) in *.
  apply Qle_trans with (1 # 2)%Q; [assumption|]. apply Qabs_Qle_condition in H.
  assert (D : n + 1 <= h \/ h + 1 <= n) by lia. rewrite Zle_Qle, Zle_Qle, !inject_Z_plus in D. change (inject_Z 1) with 1%Q in D.
  destruct D.
  - rewrite Qabs_neg by lra. lra.
  - rewrite Qabs_pos by lra. lra.
Qed.

Lemma ilog2_spec q : ~ (q == 0)%Q -> (two_to (ilog2 q) <= Qabs q < two_to (ilog2 q + 1))%Q.
Proof.
  intros N. destruct q as [n d]. unfold ilog2. cbn [Qnum Qden Qabs].
  assert (Hn : 0 < Z.abs n). { unfold Qeq in N. cbn in N. lia. }
  pose proof (Z.log2_spec _ Hn) as [L1 U1]. pose proof (Z.log2_spec (Zpos d) ltac:(lia)) as [L2 U2].
  set (a := Z.log2 (Z.abs n)) in *. set (b := Z.log2 (Zpos d)) in *.
  assert (A0 : 0 <= a) by apply Z.log2_nonneg. assert (B0 : 0 <= b) by apply Z.log2_nonneg.
  assert (E : (Z.abs n # d == inject_Z (Z.abs n) / inject_Z (Zpos d))%Q) by apply Qmake_Qdiv.
  rewrite <- Z.add_1_r in U1, U2.
  rewrite Zle_Qle, <- two_to_Z in L1 by lia. rewrite Zlt_Qlt, <- two_to_Z in U1 by lia.
  rewrite Zle_Qle, <- two_to_Z in L2 by lia. rewrite Zlt_Qlt, <- two_to_Z in U2 by lia.
  pose proof (two_to_pos a) as Pa. pose proof (two_to_pos b) as Pb.
  rewrite two_to_add in U1, U2. change (two_to 1) with 2%Q in U1, U2.
  set (N' := inject_Z (Z.abs n)) in *. set (D' := inject_Z (Zpos d)) in *.
  assert (DP : (0 < D')%Q) by lra.
  assert (F : forall k, (two_to (a - b + k) == two_to a * two_to k / two_to b)%Q).
  { intros k. replace a with ((a - b) + b) at 2 by lia. rewrite !two_to_add. field. lra. }
  assert (Up : (Z.abs n # d < two_to (a - b + 1))%Q).
  { rewrite E, F. change (two_to 1) with 2%Q. apply Qlt_shift_div_r; [assumption|].
    setoid_replace (two_to a * 2 / two_to b * D')%Q with (2 * two_to a * (D' / two_to b))%Q by (field; lra).
    assert (1 <= D' / two_to b)%Q by (apply Qle_shift_div_l; lra). nra. }
  assert (Lo : (two_to (a - b - 1) <= Z.abs n # d)%Q).
  { rewrite E. unfold Z.sub at 1. rewrite F. change (two_to (- (1))) with (1 # 2)%Q. apply Qle_shift_div_l; [assumption|].
    setoid_replace (two_to a * (1 # 2) / two_to b * D')%Q with ((1 # 2) * two_to a * (D' / two_to b))%Q by (field; lra).
    assert (D' / two_to b <= 2)%Q by (apply Qle_shift_div_r; lra). nra. }
  destruct (Qle_bool (two_to (a - b)) (Z.abs n # d)) eqn:C.
  - apply Qle_bool_iff in C. split; [assumption|]. assumption.
  - split; [assumption|]. replace (a - b - 1 + 1) with (a - b) by lia.
    apply Qnot_le_lt. intros H. apply Qle_bool_iff in H. congruence.
Qed.
Lemma ilog2_unique q k : (two_to k <= Qabs q < two_to (k + 1))%Q -> ~ (q == 0)%Q -> ilog2 q = k.
Proof.
  intros [L U] N. destruct (ilog2_spec q N) as [L' U'].
  destruct (Z.lt_trichotomy (ilog2 q) k) as [H|[H|H]]; [exfalso|assumption|exfalso].
  - assert (two_to (ilog2 q + 1) <= two_to k)%Q by (apply two_to_le; lia). lra.
  - assert (two_to (k + 1) <= two_to (ilog2 q))%Q by (apply two_to_le; lia). lra.
Qed.
Global Instance round_ne_proper p emin : Proper (Qeq ==> Qeq) (round_ne p emin).
Proof.
  intros x y E. unfold round_ne.
  assert (B : Qeq_bool x 0 = Qeq_bool y 0).
  { apply eq_iff_eq_true. rewrite !Qeq_bool_iff. now rewrite E. }
  rewrite B. destruct (Qeq_bool y 0) eqn:Z0; [reflexivity|]. apply Qeq_bool_neq in Z0.
  assert (L : last_bit p emin x = last_bit p emin y).
  { unfold last_bit. f_equal. f_equal. apply ilog2_unique; [|now rewrite E]. rewrite E. now apply ilog2_spec. }
  rewrite L. assert (H : (x / two_to (last_bit p emin y) == y / two_to (last_bit p emin y))%Q) by (now rewrite E).
  now rewrite H.
Qed.
(** a number of the format is kept *)
Lemma round_ne_exact p emin q : on_grid p emin q -> (round_ne p emin q == q)%Q.
Proof.
  intros (m & k & E & M & K). unfold round_ne. destruct (Qeq_bool q 0) eqn:Z0.
  { apply Qeq_bool_eq in Z0. now rewrite Z0. }
  apply Qeq_bool_neq in Z0. set (j := last_bit p emin q).
  assert (J : j <= k).
  { unfold j, last_bit. apply Z.max_lub; [|assumption]. destruct (ilog2_spec q Z0) as [L _].
    assert (U : (Qabs q < two_to (p + k))%Q).
    { assert (P0 : 0 <= p) by (destruct (Z.le_gt_cases 0 p); [assumption|]; rewrite Z.pow_neg_r in M by assumption; lia).
      rewrite E, Qabs_Qmult, two_to_add, (two_to_Z p) by assumption. rewrite (Qabs_pos (two_to k)) by (apply Qlt_le_weak, two_to_pos).
      apply Qmult_lt_r; [apply two_to_pos|]. rewrite Zlt_Qlt in M. exact M. }
    destruct (Z.le_gt_cases (ilog2 q) (p + k - 1)); [lia|]. exfalso.
    assert (two_to (p + k) <= two_to (ilog2 q))%Q by (apply two_to_le; lia). lra. }
  assert (H : (q / two_to j == inject_Z (m * 2 ^ (k - j)))%Q).
  { rewrite inject_Z_mult, <- two_to_Z by lia. rewrite E. replace k with ((k - j) + j) at 1 by lia. rewrite two_to_add.
    field. apply two_to_nz. }
  rewrite H, half_even_Z, <- H. field. apply two_to_nz.
Qed.
(** the result is as near as any number of the format *)
Theorem round_ne_nearest p emin q y : 0 < p -> on_grid p emin y ->
  (Qabs (round_ne p emin q - q) <= Qabs (y - q))%Q.
Proof.
  intros P (m & k & E & M & K). unfold round_ne. destruct (Qeq_bool q 0) eqn:Z0.
  { apply Qeq_bool_eq in Z0. rewrite Z0. change (Qabs (0 - 0)) with 0%Q. apply Qabs_nonneg. }
  apply Qeq_bool_neq in Z0. set (j := last_bit p emin q). pose proof (two_to_pos j) as Pj.
  assert (Grid : forall n, (Qabs (inject_Z (half_even (q / two_to j)) * two_to j - q) <= Qabs (inject_Z n * two_to j - q))%Q).
  { intros n. assert (S : forall z, (Qabs (inject_Z z * two_to j - q) == Qabs (inject_Z z - q / two_to j) * two_to j)%Q).
    { intros z. rewrite <- (Qabs_pos (two_to j)) at 3 by lra. rewrite <- Qabs_Qmult. apply Qabs_wd. field. lra. }
    rewrite !S. apply Qmult_le_compat_r; [|lra]. apply half_even_nearest. }
  destruct (Z.le_gt_cases j k) as [J|J].
  - specialize (Grid (m * 2 ^ (k - j))). rewrite inject_Z_mult, <- (two_to_Z (k - j)) in Grid by lia.
    assert (F : (inject_Z m * two_to (k - j) * two_to j == y)%Q).
    { rewrite E. replace k with ((k - j) + j) at 2 by lia. rewrite two_to_add. ring. }
    rewrite F in Grid. exact Grid.
  - (* y is below the leading power of two of q, which is on the grid *)
    assert (J' : j = ilog2 q - (p - 1)) by (unfold j, last_bit in *; lia).
    destruct (ilog2_spec q Z0) as [L _].
    assert (Y : (Qabs y <= two_to (ilog2 q))%Q).
    { apply Qle_trans with (two_to (p + k)); [|apply two_to_le; lia].
      rewrite E, Qabs_Qmult, two_to_add, (two_to_Z p) by lia. rewrite (Qabs_pos (two_to k)) by (apply Qlt_le_weak, two_to_pos).
      apply Qmult_le_compat_r; [|apply Qlt_le_weak, two_to_pos]. rewrite Zlt_Qlt in M. apply Qlt_le_weak. exact M. }
    assert (T : (inject_Z (2 ^ (p - 1)) * two_to j == two_to (ilog2 q))%Q).
    { rewrite <- two_to_Z by lia. rewrite <- two_to_add. replace (p - 1 + j) with (ilog2 q) by lia. reflexivity. }
    pose proof (two_to_pos (ilog2 q)) as Pt.
    destruct (Qlt_le_dec q 0) as [Neg|Pos].
    + specialize (Grid (- 2 ^ (p - 1))). rewrite inject_Z_opp in Grid.
      eapply Qle_trans; [exact Grid|]. rewrite Qabs_neg in L by lra.
      setoid_replace (- inject_Z (2 ^ (p - 1)) * two_to j - q)%Q with (- two_to (ilog2 q) - q)%Q by (rewrite <- T; ring).
      apply Qabs_Qle_condition in Y. rewrite !Qabs_pos by lra. lra.
    + specialize (Grid (2 ^ (p - 1))). eapply Qle_trans; [exact Grid|]. rewrite Qabs_pos in L by lra.
      rewrite T. apply Qabs_Qle_condition in Y. rewrite !Qabs_neg by lra. lra.
Qed.
(** and is itself in the format *)
Theorem round_ne_on_grid p emin q : 1 < p -> on_grid p emin (round_ne p emin q).
Proof.
  intros P. unfold round_ne. destruct (Qeq_bool q 0) eqn:Z0.
  { exists 0, emin. split; [ring|]. split; [apply Z.pow_pos_nonneg; lia|lia]. }
  apply Qeq_bool_neq in Z0. set (j := last_bit p emin q). pose proof (two_to_pos j) as Pj.
  assert (Hj : ilog2 q - (p - 1) <= j /\ emin <= j) by (unfold j, last_bit; lia).
  set (h := half_even (q / two_to j)).
  assert (H : Z.abs h <= 2 ^ p).
  { destruct (ilog2_spec q Z0) as [_ U].
    assert (B : (Qabs (q / two_to j) < inject_Z (2 ^ p))%Q).
    { unfold Qdiv. rewrite Qabs_Qmult, (Qabs_pos (/ two_to j)) by (apply Qlt_le_weak, Qinv_lt_0_compat; assumption).
      apply Qlt_shift_div_r; [assumption|]. rewrite <- two_to_Z by lia. rewrite <- two_to_add.
      eapply Qlt_le_trans; [exact U|]. apply two_to_le. lia. }
    pose proof (half_even_near (q / two_to j)) as N. fold h in N.
    apply Qabs_Qle_condition in N. apply Qabs_Qlt_condition in B.
    assert (C : (inject_Z (- 2 ^ p - 1) < inject_Z h < inject_Z (2 ^ p + 1))%Q).
    { unfold Z.sub. rewrite !inject_Z_plus, !inject_Z_opp. change (inject_Z 1) with 1%Q. split; lra. }
    rewrite <- !Zlt_Qlt in C. lia. }
  destruct (Z.eq_dec (Z.abs h) (2 ^ p)) as [Ep|Np].
  - exists (Z.sgn h), (j + p). split; [|split; [|lia]].
    + rewrite two_to_add, two_to_Z with (n := p) by lia. rewrite <- Ep.
      assert (S : h = Z.sgn h * Z.abs h) by (rewrite Z.mul_comm; symmetry; apply Z.abs_sgn).
      rewrite S at 1. rewrite inject_Z_mult. ring.
    + assert (2 < 2 ^ p) by (apply (Z.pow_lt_mono_r 2 1); lia). destruct h; cbn; lia.
  - exists h, j. split; [reflexivity|]. split; lia.
Qed.
(** rounding keeps the sign and small integers *)
Lemma round64_Z z : Z.abs z < 2 ^ 53 -> (round64 (inject_Z z) == inject_Z z)%Q.
Proof. intros H. apply round_ne_exact. exists z, 0. split; [change (two_to 0) with 1%Q; ring|]. split; [assumption|lia]. Qed.
Lemma round32_Z z : Z.abs z < 2 ^ 24 -> (round32 (inject_Z z) == inject_Z z)%Q.
Proof. intros H. apply round_ne_exact. exists z, 0. split; [change (two_to 0) with 1%Q; ring|]. split; [assumption|lia]. Qed.
