(** More facts on rounding: it keeps the order, and its relative error is bounded. *)
From Coq Require Import QArith Qabs Qround Lqa Lia ZArith.
From Verif.Base Require Import Py Float.
Open Scope Z_scope.

Lemma half_even_mono x y : (x <= y)%Q -> half_even x <= half_even y.
Proof.
  intros H. destruct (Z.le_gt_cases (half_even x) (half_even y)) as [L|L]; [exact L|exfalso].
  pose proof (half_even_near x) as Nx. pose proof (half_even_near y) as Ny.
  apply Qabs_Qle_condition in Nx. apply Qabs_Qle_condition in Ny.
  assert (L' : half_even y + 1 <= half_even x) by lia. rewrite Zle_Qle, inject_Z_plus in L'. change (inject_Z 1) with 1%Q in L'.
  assert (E : (x == y)%Q) by lra. rewrite E in L. lia.
Qed.
Lemma round_ne_mono p emin x y : 1 < p -> (x <= y)%Q -> (round_ne p emin x <= round_ne p emin y)%Q.
Proof.
  intros P H. apply Qnot_lt_le. intros L.
  pose proof (round_ne_nearest p emin x _ ltac:(lia) (round_ne_on_grid p emin y P)) as Nx.
  pose proof (round_ne_nearest p emin y _ ltac:(lia) (round_ne_on_grid p emin x P)) as Ny.
  set (rx := round_ne p emin x) in *. set (ry := round_ne p emin y) in *.
  assert (E : (x == y)%Q).
  { apply Qle_antisym; [exact H|]. apply Qnot_lt_le. intros G.
    revert Nx Ny. apply (Qabs_case (rx - x)); apply (Qabs_case (ry - x)); apply (Qabs_case (ry - y)); apply (Qabs_case (rx - y)); intros; lra. }
  unfold rx, ry in L. rewrite E in L. lra.
Qed.
Lemma round_ne_0 p emin : (round_ne p emin 0 == 0)%Q.
Proof. reflexivity. Qed.
Lemma round_ne_nonneg p emin x : 1 < p -> (0 <= x)%Q -> (0 <= round_ne p emin x)%Q.
Proof. intros P H. apply (round_ne_mono p emin 0 x P) in H. now rewrite round_ne_0 in H. Qed.
(** absolute error *)
Lemma round_ne_err p emin q : 0 < p -> (Qabs (round_ne p emin q - q) <= two_to (- p) * Qabs q + two_to (emin - 1))%Q.
Proof.
  intros P. unfold round_ne. destruct (Qeq_bool q 0) eqn:Z0.
  { apply Qeq_bool_eq in Z0. rewrite Z0. change (Qabs (0 - 0)) with 0%Q. change (Qabs 0) with 0%Q. pose proof (two_to_pos (emin - 1)). lra. }
  apply Qeq_bool_neq in Z0. set (j := last_bit p emin q). pose proof (two_to_pos j) as Pj.
  assert (E : (Qabs (inject_Z (half_even (q / two_to j)) * two_to j - q) <= (1 # 2) * two_to j)%Q).
  { setoid_replace (inject_Z (half_even (q / two_to j)) * two_to j - q)%Q
      with ((inject_Z (half_even (q / two_to j)) - q / two_to j) * two_to j)%Q by (field; lra).
    rewrite Qabs_Qmult, (Qabs_pos (two_to j)) by lra. apply Qmult_le_compat_r; [apply half_even_near|lra]. }
  eapply Qle_trans; [exact E|]. destruct (ilog2_spec q Z0) as [L _].
  assert (Half : forall k, ((1 # 2) * two_to k == two_to (k - 1))%Q).
  { intros k. unfold Z.sub. rewrite two_to_add. change (two_to (- (1))) with (1 # 2)%Q. ring. }
  rewrite Half. pose proof (two_to_pos (emin - 1)) as Pe. pose proof (two_to_pos (- p)) as Pp.
  assert (Hj : j = ilog2 q - (p - 1) \/ j = emin) by (unfold j, last_bit; lia).
  destruct Hj as [->| ->].
  - replace (ilog2 q - (p - 1) - 1) with (- p + ilog2 q) by lia. rewrite two_to_add. nra.
  - pose proof (Qabs_nonneg q). nra.
Qed.
(** relative error, for numbers not below the smallest normal one or multiples of the
    smallest positive one *)
Lemma round_ne_rel p emin q : 0 < p -> (two_to (emin + p - 1) <= Qabs q)%Q \/ (exists m, (q == inject_Z m * two_to emin)%Q) ->
  (Qabs (round_ne p emin q - q) <= two_to (- p) * Qabs q)%Q.
Proof.
  intros P H. unfold round_ne. destruct (Qeq_bool q 0) eqn:Z0.
  { apply Qeq_bool_eq in Z0. rewrite Z0. change (Qabs (0 - 0)) with 0%Q. change (Qabs 0) with 0%Q. lra. }
  apply Qeq_bool_neq in Z0. set (j := last_bit p emin q). pose proof (two_to_pos j) as Pj.
  assert (E : (Qabs (inject_Z (half_even (q / two_to j)) * two_to j - q) <= (1 # 2) * two_to j)%Q).
  { setoid_replace (inject_Z (half_even (q / two_to j)) * two_to j - q)%Q
      with ((inject_Z (half_even (q / two_to j)) - q / two_to j) * two_to j)%Q by (field; lra).
    rewrite Qabs_Qmult, (Qabs_pos (two_to j)) by lra. apply Qmult_le_compat_r; [apply half_even_near|lra]. }
  destruct (ilog2_spec q Z0) as [L U]. pose proof (two_to_pos (- p)) as Pp.
  assert (Half : forall k, ((1 # 2) * two_to k == two_to (k - 1))%Q).
  { intros k. unfold Z.sub. rewrite two_to_add. change (two_to (- (1))) with (1 # 2)%Q. ring. }
  destruct (Z.le_gt_cases emin (ilog2 q - (p - 1))) as [J|J].
  - eapply Qle_trans; [exact E|]. rewrite Half. assert (Ej : j = ilog2 q - (p - 1)) by (unfold j, last_bit; lia). rewrite Ej.
    replace (ilog2 q - (p - 1) - 1) with (- p + ilog2 q) by lia. rewrite two_to_add. nra.
  - assert (Ej : j = emin) by (unfold j, last_bit; lia). destruct H as [H|[m Hm]].
    + exfalso. assert (two_to (ilog2 q + 1) <= two_to (emin + p - 1))%Q by (apply two_to_le; lia). lra.
    + assert (Ex : (q / two_to j == inject_Z m)%Q) by (rewrite Ej, Hm; field; apply two_to_nz).
      rewrite Ex, half_even_Z, Ej, <- Hm. setoid_replace (q - q)%Q with 0%Q by ring. change (Qabs 0) with 0%Q.
      pose proof (Qabs_nonneg q). nra.
Qed.
(** differences of numbers of the format *)
Lemma on_grid_multiple p emin q : on_grid p emin q -> exists m, (q == inject_Z m * two_to emin)%Q.
Proof.
  intros (m & k & E & _ & K). exists (m * 2 ^ (k - emin)). rewrite inject_Z_mult, <- two_to_Z by lia. rewrite E.
  replace k with ((k - emin) + emin) at 1 by lia. rewrite two_to_add. ring.
Qed.
Lemma on_grid_minus p emin x y : on_grid p emin x -> on_grid p emin y -> exists m, (x - y == inject_Z m * two_to emin)%Q.
Proof.
  intros Hx Hy. destruct (on_grid_multiple _ _ _ Hx) as (m & Em). destruct (on_grid_multiple _ _ _ Hy) as (n & En).
  exists (m - n). rewrite Em, En. unfold Z.sub. rewrite inject_Z_plus, inject_Z_opp. ring.
Qed.
