(** Proofs about browse images (model: Model/Browse.v). *)
From Coq Require Import QArith Qabs Qminmax Qround Lqa Lia ZArith Permutation Sorted.
From Verif.Base Require Import Py Val Numpy Float FloatMore.
From Verif.Model Require Import Scaling Browse.
From Verif.Spec Require Import Scaling Browse.
From Verif.Proofs Require Import Scaling.
Open Scope Z_scope.

(** *** the arithmetic core *)
Section Core.
  Local Open Scope Q_scope.
  Let u : Q := 1 # 16777216.
  Lemma core_scale D d Dr dr k pr : 0 < D -> 0 <= d <= D -> Qabs (dr - d) <= u * d -> Qabs (Dr - D) <= u * D ->
    Qabs (k - 255 / Dr) <= u * (255 / Dr) -> 0 <= dr -> 0 <= k -> Qabs (pr - dr * k) <= u * (dr * k) + u -> Qabs (pr - 255 * d / D) <= 1 # 4096.
  Proof.
    intros HD [Hd0 Hd1] Hdr HDr Hk Pdr Pk Hpr. apply Qabs_Qle_condition in Hdr as [a1 a2], HDr as [b1 b2], Hk as [c1 c2], Hpr as [e1 e2].
    assert (PDr : 0 < Dr) by (unfold u in *; lra).
    assert (W : exists w, w == 255 / Dr /\ w * Dr == 255) by (exists (255 / Dr); split; [reflexivity|field; lra]).
    destruct W as (w & Ew & Hw). rewrite <- Ew in c1, c2. clear Ew. assert (Pw : 0 < w) by nra.
    assert (S : exists s, s == d / D /\ s * D == d) by (exists (d / D); split; [reflexivity|field; lra]). destruct S as (s & Es & Hs).
    setoid_replace (255 * d / D) with (255 * s) by (rewrite Es; field; lra). clear Es.
    assert (S0 : 0 <= s) by nra. assert (S1 : s <= 1) by nra.
    (* w D within 255 (1 +- 2u) *)
    assert (X : exists x, x == w * D) by (exists (w * D); reflexivity). destruct X as (x & Ex).
    assert (X1 : x <= 255 * (1 + 2 * u)) by (unfold u in *; nra).
    assert (X2 : 255 * (1 - 2 * u) <= x) by (unfold u in *; nra).
    assert (Y : exists y, y == k * D) by (exists (k * D); reflexivity). destruct Y as (y & Ey).
    assert (Y1 : y <= x * (1 + u)) by (rewrite Ey, Ex; unfold u in *; nra).
    assert (Y2 : x * (1 - u) <= y) by (rewrite Ey, Ex; unfold u in *; nra).
    assert (Y3 : y <= 255 * (1 + 4 * u)) by (unfold u in *; lra).
    assert (Y4 : 255 * (1 - 4 * u) <= y) by (unfold u in *; lra).
    assert (Dd : dr * k <= (1 + u) * (s * y)).
    { setoid_replace ((1 + u) * (s * y)) with ((1 + u) * (s * D) * k) by (rewrite Ey; ring). rewrite Hs. apply Qmult_le_compat_r; [lra|assumption]. }
    assert (De : (1 - u) * (s * y) <= dr * k).
    { setoid_replace ((1 - u) * (s * y)) with ((1 - u) * (s * D) * k) by (rewrite Ey; ring). rewrite Hs. apply Qmult_le_compat_r; [lra|assumption]. }
    assert (Z1 : s * y <= s * (255 * (1 + 4 * u))) by nra.
    assert (Z2 : s * (255 * (1 - 4 * u)) <= s * y) by nra.
    apply Qabs_Qle_condition. unfold u in *. split; lra.
  Qed.
  (** multiplied first, then divided *)
  Lemma core_inplace D d Dr dr m pr : 0 < D -> 0 <= d <= D -> Qabs (dr - d) <= u * d -> Qabs (Dr - D) <= u * D -> 0 <= dr ->
    Qabs (m - dr * 255) <= u * (dr * 255) + u * D -> 0 <= m -> Qabs (pr - m / Dr) <= u * (m / Dr) + u -> Qabs (pr - 255 * d / D) <= 1 # 4096.
  Proof.
    intros HD [Hd0 Hd1] Hdr HDr Pdr Hm Pm Hpr. apply Qabs_Qle_condition in Hdr as [a1 a2], HDr as [b1 b2], Hm as [c1 c2], Hpr as [e1 e2].
    assert (PDr : 0 < Dr) by (unfold u in *; lra).
    assert (W : exists w, w == m / Dr /\ w * Dr == m) by (exists (m / Dr); split; [reflexivity|field; lra]).
    destruct W as (w & Ew & Hw). rewrite <- Ew in e1, e2. clear Ew. assert (Pw : 0 <= w) by nra.
    assert (S : exists s, s == d / D /\ s * D == d) by (exists (d / D); split; [reflexivity|field; lra]). destruct S as (s & Es & Hs).
    setoid_replace (255 * d / D) with (255 * s) by (rewrite Es; field; lra). clear Es.
    assert (S0 : 0 <= s) by nra. assert (S1 : s <= 1) by nra.
    (* m = M D *)
    assert (M : exists n, n == m / D /\ n * D == m) by (exists (m / D); split; [reflexivity|field; lra]). destruct M as (n & _ & Hn).
    assert (N1 : n <= 255 * s * (1 + 2 * u) + u + 255 * (u * u)).
    { assert (n * D <= (255 * s * (1 + 2 * u) + u + 255 * (u * u)) * D); [|nra]. rewrite Hn.
      setoid_replace ((255 * s * (1 + 2 * u) + u + 255 * (u * u)) * D) with (255 * (s * D) * (1 + 2 * u) + u * D + 255 * (u * u) * D) by ring. rewrite Hs. unfold u in *. lra. }
    assert (N2 : 255 * s * (1 - 2 * u) - u <= n).
    { assert ((255 * s * (1 - 2 * u) - u) * D <= n * D); [|nra]. rewrite Hn.
      setoid_replace ((255 * s * (1 - 2 * u) - u) * D) with (255 * (s * D) * (1 - 2 * u) - u * D) by ring. rewrite Hs. unfold u in *. lra. }
    assert (N0 : 0 <= n) by nra.
    assert (G1 : D <= (1 + 2 * u) * Dr) by (unfold u in *; lra). assert (G2 : (1 - 2 * u) * Dr <= D) by (unfold u in *; lra).
    assert (W1 : w <= n * (1 + 2 * u)).
    { apply Qmult_le_r with Dr; [exact PDr|]. rewrite Hw, <- Hn. setoid_replace (n * (1 + 2 * u) * Dr) with (n * ((1 + 2 * u) * Dr)) by ring.
      rewrite !(Qmult_comm n). apply Qmult_le_compat_r; assumption. }
    assert (W2 : n * (1 - 2 * u) <= w).
    { apply Qmult_le_r with Dr; [exact PDr|]. rewrite Hw, <- Hn. setoid_replace (n * (1 - 2 * u) * Dr) with (n * ((1 - 2 * u) * Dr)) by ring.
      rewrite !(Qmult_comm n). apply Qmult_le_compat_r; assumption. }
    apply Qabs_Qle_condition. unfold u in *. split; lra.
  Qed.
End Core.

(** *** clipping *)
Lemma clip_clamp lo hi x : (clip_q lo hi x == clamp lo hi x)%Q.
Proof.
  unfold clip_q, clamp. destruct (Qle_bool lo x) eqn:E1.
  - apply Qle_bool_iff in E1. assert (M : (Qmax lo x == x)%Q) by now apply Q.max_r. rewrite M.
    destruct (Qle_bool x hi) eqn:E2; [apply Qle_bool_iff in E2; now rewrite Q.min_l|].
    rewrite Q.min_r; [reflexivity|]. apply Qlt_le_weak. apply Qnot_le_lt. rewrite <- Qle_bool_iff. congruence.
  - assert (L : (x <= lo)%Q) by (apply Qlt_le_weak, Qnot_le_lt; rewrite <- Qle_bool_iff; congruence).
    assert (M : (Qmax lo x == lo)%Q) by now apply Q.max_l. rewrite M.
    destruct (Qle_bool lo hi) eqn:E2; [apply Qle_bool_iff in E2; now rewrite Q.min_l|].
    rewrite Q.min_r; [reflexivity|]. apply Qlt_le_weak. apply Qnot_le_lt. rewrite <- Qle_bool_iff. congruence.
Qed.
Lemma clip_cases lo hi x : clip_q lo hi x = lo \/ clip_q lo hi x = hi \/ clip_q lo hi x = x.
Proof. unfold clip_q. destruct (Qle_bool lo x); [destruct (Qle_bool x hi); auto|destruct (Qle_bool lo hi); auto]. Qed.
Lemma Qle_bool_false x y : Qle_bool x y = false -> (y < x)%Q.
Proof. intros H. apply Qnot_le_lt. rewrite <- Qle_bool_iff. congruence. Qed.
Lemma clip_between lo hi x : (lo <= hi)%Q -> (lo <= clip_q lo hi x <= hi)%Q.
Proof.
  intros H. unfold clip_q. destruct (Qle_bool lo x) eqn:E1.
  - apply Qle_bool_iff in E1. destruct (Qle_bool x hi) eqn:E2; [apply Qle_bool_iff in E2; now split|]. lra.
  - destruct (Qle_bool lo hi); lra.
Qed.
Lemma clip_mono lo hi x y : (lo <= hi)%Q -> (x <= y)%Q -> (clip_q lo hi x <= clip_q lo hi y)%Q.
Proof.
  intros H L. unfold clip_q. apply Qle_bool_iff in H as Hb. rewrite ?Hb.
  destruct (Qle_bool lo x) eqn:E1, (Qle_bool lo y) eqn:E2; rewrite ?Hb;
    try apply Qle_bool_iff in E1; try apply Qle_bool_iff in E2; try apply Qle_bool_false in E1; try apply Qle_bool_false in E2.
  - destruct (Qle_bool x hi) eqn:E3, (Qle_bool y hi) eqn:E4;
      try apply Qle_bool_iff in E3; try apply Qle_bool_iff in E4; try apply Qle_bool_false in E3; try apply Qle_bool_false in E4; lra.
  - lra.
  - destruct (Qle_bool y hi) eqn:E4; try apply Qle_bool_iff in E4; try apply Qle_bool_false in E4; lra.
  - lra.
Qed.
Lemma clip_holds d lo hi x : holds d lo -> holds d hi -> holds d x -> holds d (clip_q lo hi x).
Proof. intros A B C. destruct (clip_cases lo hi x) as [->|[->| ->]]; assumption. Qed.

(** *** float operations *)
Definition unit_q : Q := 1 # 16777216.
Definition prec (d : dt) : Z := match d with DF32 => 24 | _ => 53 end.
Definition elow (d : dt) : Z := match d with DF32 => -149 | _ => -1074 end.
Lemma round_to_ne d q : is_float d -> round_to d q = round_ne (prec d) (elow d) q.
Proof. destruct d; [intros []|reflexivity|reflexivity]. Qed.
Lemma prec_ok d : 1 < prec d. Proof. destruct d; reflexivity. Qed.
Lemma prec_unit d : (two_to (- prec d) <= unit_q)%Q.
Proof. destruct d; vm_compute; discriminate. Qed.
Lemma fl_some d q : is_float d -> (Qabs q <= two_to (top d))%Q -> fl d q = Some (round_to d q).
Proof.
  intros F B. unfold fl. replace (Qle_bool _ _) with true; [reflexivity|]. symmetry. apply Qle_bool_iff.
  eapply Qle_trans; [apply (round_to_bound d q (top d)); [assumption|destruct d; cbn; lia|assumption]|apply fmax_top].
Qed.
Lemma fl_inv d q r : fl d q = Some r -> r = round_to d q.
Proof. unfold fl. destruct (Qle_bool _ _); [now injection 1|discriminate]. Qed.
Lemma round_to_mono d x y : (x <= y)%Q -> (round_to d x <= round_to d y)%Q.
Proof. intros H. destruct d; apply round_ne_mono; (reflexivity || exact H). Qed.
Lemma round_to_nonneg d x : (0 <= x)%Q -> (0 <= round_to d x)%Q.
Proof. intros H. destruct d; apply round_ne_nonneg; (reflexivity || exact H). Qed.
Lemma float_rel d q : is_float d -> (two_to (elow d + prec d - 1) <= Qabs q)%Q \/ (exists m, (q == inject_Z m * two_to (elow d))%Q) ->
  (Qabs (round_to d q - q) <= unit_q * Qabs q)%Q.
Proof.
  intros F H. rewrite (round_to_ne _ _ F). eapply Qle_trans; [apply round_ne_rel; [pose proof (prec_ok d); lia|exact H]|].
  apply Qmult_le_compat_r; [apply prec_unit|apply Qabs_nonneg].
Qed.
Lemma float_abs d q : is_float d -> (Qabs (round_to d q - q) <= unit_q * Qabs q + two_to (elow d - 1))%Q.
Proof.
  intros F. rewrite (round_to_ne _ _ F). eapply Qle_trans; [apply round_ne_err; pose proof (prec_ok d); lia|].
  apply Qplus_le_compat; [|apply Qle_refl]. apply Qmult_le_compat_r; [apply prec_unit|apply Qabs_nonneg].
Qed.
Lemma holds_minus d x y : is_float d -> holds d x -> holds d y -> exists m, (x - y == inject_Z m * two_to (elow d))%Q.
Proof.
  intros F Hx Hy. destruct d; [destruct F| |].
  - exact (on_grid_minus 24 (-149) x y (proj1 Hx) (proj1 Hy)).
  - exact (on_grid_minus 53 (-1074) x y (proj1 Hx) (proj1 Hy)).
Qed.
Lemma shade_eq lo hi x : (lo < hi)%Q -> (shade lo hi x == 255 * (clip_q lo hi x - lo) / (hi - lo))%Q.
Proof. intros _. unfold shade. now rewrite clip_clamp. Qed.

Lemma rescale_float d inplace lo hi x : is_float d -> holds d lo -> holds d hi -> holds d x -> scalable d inplace lo hi ->
  exists r, rescale d inplace lo hi x = Some r /\ (0 <= r)%Q /\ (Qabs (r - shade lo hi x) <= 1 # 4096)%Q.
Proof.
  intros F Hl Hh Hx [Hlt Hsc]. cbv zeta in Hsc.
  pose proof (clip_holds d lo hi x Hl Hh Hx) as Hc. pose proof (clip_between lo hi x (Qlt_le_weak _ _ Hlt)) as Bc.
  setoid_rewrite (shade_eq lo hi x Hlt). set (c := clip_q lo hi x) in *.
  assert (SpanB : (two_to (match d with DF32 => -118 | _ => -1014 end) <= hi - lo)%Q) by (destruct d; [destruct F|apply Hsc|apply Hsc]).
  assert (SpanT : (hi - lo <= two_to (top d - 1))%Q).
  { destruct d; [destruct F| |]; (eapply Qle_trans; [apply Hsc|apply two_to_le; destruct inplace; cbn; lia]). }
  assert (TopT : forall d, (two_to (top d - 1) + two_to (top d - 1) == two_to (top d))%Q).
  { intros e. rewrite <- (Z.sub_add 1 (top e)) at 3. rewrite two_to_add. change (two_to 1) with 2%Q. ring. }
  pose proof (two_to_pos (top d - 1)) as Pt. specialize (TopT d).
  set (D := (hi - lo)%Q) in *. set (dd := (c - lo)%Q) in *.
  assert (HD : (0 < D)%Q) by (unfold D; lra). assert (Hd : (0 <= dd <= D)%Q) by (unfold dd, D; lra).
  assert (E1 : fl d dd = Some (round_to d dd)) by (apply fl_some; [exact F|]; rewrite Qabs_pos by lra; lra).
  assert (E2 : fl d D = Some (round_to d D)) by (apply fl_some; [exact F|]; rewrite Qabs_pos by lra; lra).
  pose proof (float_rel d dd F (or_intror (holds_minus d c lo F Hc Hl))) as R1. rewrite (Qabs_pos dd) in R1 by lra.
  pose proof (float_rel d D F (or_intror (holds_minus d hi lo F Hh Hl))) as R2. rewrite (Qabs_pos D) in R2 by lra.
  pose proof (round_to_nonneg d dd (proj1 Hd)) as P1.
  assert (E : rescale d inplace lo hi x = obind (fl d dd) (fun diff => obind (fl d D) (fun span =>
     if Qeq_bool span 0 then None else if inplace then obind (fl d (diff * 255)) (fun m => fl d (m / span)) else obind (fl d (255 / span)) (fun k => fl d (diff * k)))))
   by (destruct d; [destruct F|reflexivity|reflexivity]).
  rewrite E, E1, E2. cbn [obind]. clear E E1 E2.
  set (dr := round_to d dd) in *. set (Dr := round_to d D) in *.
  assert (PDr : (0 < Dr)%Q) by (apply Qabs_Qle_condition in R2; unfold unit_q in *; lra).
  assert (BDr : (D <= 2 * Dr /\ Dr <= 2 * D)%Q) by (apply Qabs_Qle_condition in R2; unfold unit_q in *; lra).
  assert (Bdr : (dr <= 2 * dd)%Q) by (apply Qabs_Qle_condition in R1; unfold unit_q in *; lra).
  replace (Qeq_bool Dr 0) with false by (symmetry; apply not_true_iff_false; rewrite Qeq_bool_iff; lra).
  destruct inplace.
  - assert (SpanI : (D <= two_to (match d with DF32 => 118 | _ => 1014 end))%Q) by (destruct d; [destruct F|apply Hsc|apply Hsc]).
    assert (E3 : fl d (dr * 255) = Some (round_to d (dr * 255))).
    { apply fl_some; [exact F|]. rewrite Qabs_pos by lra. apply Qle_trans with (two_to 9 * two_to (match d with DF32 => 118 | _ => 1014 end))%Q.
      - change (two_to 9) with 512%Q. lra.
      - rewrite <- two_to_add. apply two_to_le. destruct d; cbn; lia. }
    rewrite E3. cbn [obind]. pose proof (float_abs d (dr * 255) F) as R3. rewrite (Qabs_pos (dr * 255)) in R3 by lra.
    pose proof (round_to_nonneg d (dr * 255) ltac:(lra)) as P3. set (m := round_to d (dr * 255)) in *.
    assert (Low : (two_to (elow d - 1) <= unit_q * D)%Q).
    { apply Qle_trans with (unit_q * two_to (match d with DF32 => -118 | _ => -1014 end))%Q.
      - destruct d; [destruct F| |]; vm_compute; discriminate.
      - rewrite !(Qmult_comm unit_q). apply Qmult_le_compat_r; [exact SpanB|discriminate]. }
    assert (Bm : (m <= 1024 * Dr)%Q) by (apply Qabs_Qle_condition in R3; unfold unit_q in *; lra).
    assert (P4 : (0 <= m / Dr <= 1024)%Q) by (split; [apply Qle_shift_div_l; lra|apply Qle_shift_div_r; lra]).
    assert (E4 : fl d (m / Dr) = Some (round_to d (m / Dr))).
    { apply fl_some; [exact F|]. rewrite Qabs_pos by lra. eapply Qle_trans; [apply P4|]. change 1024%Q with (two_to 10). apply two_to_le. destruct d; cbn; lia. }
    rewrite E4. eexists. split; [reflexivity|]. split; [apply round_to_nonneg; lra|].
    pose proof (float_abs d (m / Dr) F) as R4. rewrite (Qabs_pos (m / Dr)) in R4 by lra.
    assert (Low' : (two_to (elow d - 1) <= unit_q)%Q) by (destruct d; [destruct F| |]; vm_compute; discriminate).
    apply (core_inplace D dd Dr dr m); fold unit_q; try assumption; lra.
  - assert (Q0 : (0 <= 255 / Dr)%Q) by (apply Qle_shift_div_l; lra).
    assert (E3 : fl d (255 / Dr) = Some (round_to d (255 / Dr))).
    { apply fl_some; [exact F|]. rewrite Qabs_pos by exact Q0. apply Qle_shift_div_r; [exact PDr|].
      apply Qle_trans with (two_to (top d) * (two_to (match d with DF32 => -118 | _ => -1014 end) * (1 # 2)))%Q.
      - destruct d; [destruct F| |]; vm_compute; discriminate.
      - rewrite !(Qmult_comm (two_to (top d))). apply Qmult_le_compat_r; [lra|]. pose proof (two_to_pos (top d)); lra. }
    rewrite E3. cbn [obind].
    assert (R3 : (Qabs (round_to d (255 / Dr) - 255 / Dr) <= unit_q * (255 / Dr))%Q).
    { rewrite <- (Qabs_pos (255 / Dr)) at 3 by exact Q0. apply float_rel; [exact F|]. left. rewrite Qabs_pos by exact Q0.
      apply Qle_shift_div_l; [exact PDr|]. apply Qle_trans with (two_to (elow d + prec d - 1) * two_to (top d))%Q.
      - rewrite !(Qmult_comm (two_to (elow d + prec d - 1))). apply Qmult_le_compat_r; [lra|]. pose proof (two_to_pos (elow d + prec d - 1)); lra.
      - destruct d; [destruct F| |]; vm_compute; discriminate. }
    pose proof (round_to_nonneg d (255 / Dr) Q0) as P3. set (k := round_to d (255 / Dr)) in *.
    assert (P4 : (0 <= dr * k <= 2048)%Q).
    { split; [apply Qmult_le_0_compat; assumption|]. assert (W : (255 / Dr * Dr == 255)%Q) by (field; lra). set (w := (255 / Dr)%Q) in *.
      apply Qabs_Qle_condition in R3. assert (k <= 2 * w)%Q by (unfold unit_q in *; lra).
      apply Qle_trans with ((4 * Dr) * (2 * w))%Q; [|lra]. apply Qle_trans with (dr * (2 * w))%Q.
      - rewrite !(Qmult_comm dr). apply Qmult_le_compat_r; assumption.
      - apply Qmult_le_compat_r; lra. }
    assert (E4 : fl d (dr * k) = Some (round_to d (dr * k))).
    { apply fl_some; [exact F|]. rewrite Qabs_pos by lra. eapply Qle_trans; [apply P4|]. change 2048%Q with (two_to 11). apply two_to_le. destruct d; cbn; lia. }
    rewrite E4. eexists. split; [reflexivity|]. split; [apply round_to_nonneg; lra|].
    pose proof (float_abs d (dr * k) F) as R4. rewrite (Qabs_pos (dr * k)) in R4 by lra.
    assert (Low' : (two_to (elow d - 1) <= unit_q)%Q) by (destruct d; [destruct F| |]; vm_compute; discriminate).
    apply (core_scale D dd Dr dr k); fold unit_q; try assumption; lra.
Qed.

(** *** integers *)
Lemma wide_int b : b = 4 \/ b = 8 -> numpy_int b. Proof. unfold numpy_int. lia. Qed.
Lemma int_span (s : bool) b z f : (b = 4 \/ b = 8) -> 0 <= z -> 1 <= f -> (inject_Z z * inject_Z f < inject_Z (2 ^ (if s then 8 * b - 1 else 8 * b)))%Q ->
  z * f < 2 ^ (if s then 8 * b - 1 else 8 * b) /\ int_holds s b z /\ int_holds s b (z * f).
Proof.
  intros B Z0 F H. rewrite <- inject_Z_mult, <- Zlt_Qlt in H. split; [exact H|]. assert (z <= z * f) by nia. unfold int_holds.
  assert (0 < 2 ^ (8 * b - 1)) by (apply Z.pow_pos_nonneg; lia). destruct s; lia.
Qed.
Lemma rescale_int s b inplace lo hi x : (b = 4 \/ b = 8) -> holds (DInt s b) lo -> holds (DInt s b) hi -> holds (DInt s b) x -> scalable (DInt s b) inplace lo hi ->
  exists r, rescale (DInt s b) inplace lo hi x = Some r /\ (0 <= r)%Q /\
    (if inplace then exists z, r = inject_Z z /\ (inject_Z z <= shade lo hi x < inject_Z z + 1)%Q else (Qabs (r - shade lo hi x) <= 1 # 4096)%Q).
Proof.
  intros B Hl Hh Hx [Hlt Hsc]. cbv zeta in Hsc.
  pose proof (clip_holds _ lo hi x Hl Hh Hx) as Hc. pose proof (clip_between lo hi x (Qlt_le_weak _ _ Hlt)) as Bc.
  pose proof (shade_eq lo hi x Hlt) as Es. set (sh := shade lo hi x) in *. clearbody sh. unfold rescale. set (c := clip_q lo hi x) in *.
  destruct Hl as (zl & El & _), Hh as (zh & Eh & _), Hc as (zc & Ec & _).
  rewrite (int_of_Z _ _ El), (int_of_Z _ _ Eh), (int_of_Z _ _ Ec).
  assert (L1 : zl < zh) by (rewrite Zlt_Qlt; lra). assert (L2 : zl <= zc <= zh) by (split; rewrite Zle_Qle; lra).
  assert (ED : (hi - lo == inject_Z (zh - zl))%Q) by (rewrite El, Eh; unfold Z.sub; rewrite inject_Z_plus, inject_Z_opp; ring).
  assert (Ed : (c - lo == inject_Z (zc - zl))%Q) by (rewrite El, Ec; unfold Z.sub; rewrite inject_Z_plus, inject_Z_opp; ring).
  rewrite Ed, ED in *. set (D := zh - zl) in *. set (dd := zc - zl) in *. assert (0 < D) by lia. assert (0 <= dd <= D) by lia.
  assert (Sp : (inject_Z D * inject_Z (if inplace then 255 else 1) < inject_Z (2 ^ (if s then 8 * b - 1 else 8 * b)))%Q) by (destruct inplace; exact Hsc).
  apply (int_span s b D _ B) in Sp as (Sp & W1 & W2); [|lia|destruct inplace; lia].
  assert (W3 : int_holds s b dd) by (unfold int_holds in *; destruct s; lia).
  rewrite (wrap_id s b D), (wrap_id s b dd) by (auto using wide_int). replace (D =? 0) with false by (symmetry; apply Z.eqb_neq; lia).
  destruct inplace.
  - assert (W4 : int_holds s b (dd * 255)) by (unfold int_holds in *; destruct s; nia). rewrite (wrap_id s b (dd * 255)) by (auto using wide_int).
    pose proof (Z.div_mod (dd * 255) D ltac:(lia)) as DM. pose proof (Z.mod_pos_bound (dd * 255) D ltac:(lia)) as MB.
    set (q := dd * 255 / D) in *. assert (Q0 : 0 <= q <= dd * 255) by (split; [apply Z.div_pos; lia|apply Z.div_le_upper_bound; nia]).
    rewrite (wrap_id s b q) by (auto using wide_int; unfold int_holds in *; destruct s; lia).
    exists (inject_Z q). split; [reflexivity|]. split; [change 0%Q with (inject_Z 0); rewrite <- Zle_Qle; lia|]. exists q. split; [reflexivity|]. rewrite Es.
    assert (PD : (0 < inject_Z D)%Q) by (change 0%Q with (inject_Z 0); rewrite <- Zlt_Qlt; lia).
    change 1%Q with (inject_Z 1). change 255%Q with (inject_Z 255). rewrite <- inject_Z_mult, <- inject_Z_plus.
    split; [apply Qle_shift_div_l|apply Qlt_shift_div_r]; try exact PD; rewrite <- inject_Z_mult, <- ?Zle_Qle, <- ?Zlt_Qlt; nia.
  - assert (Big : 2 ^ (if s then 8 * b - 1 else 8 * b) <= 2 ^ 64) by (apply Z.pow_le_mono_r; destruct s; lia).
    assert (PD : (1 <= inject_Z D)%Q) by (change 1%Q with (inject_Z 1); rewrite <- Zle_Qle; lia).
    assert (UD : (inject_Z D <= two_to 64)%Q) by (rewrite two_to_Z, <- Zle_Qle by lia; lia).
    assert (Q0 : (0 <= 255 / inject_Z D <= 255)%Q) by (split; [apply Qle_shift_div_l; lra|apply Qle_shift_div_r; lra]).
    assert (F : is_float DF64) by exact I.
    assert (E3 : fl DF64 (255 / inject_Z D) = Some (round_to DF64 (255 / inject_Z D))).
    { apply fl_some; [exact F|]. rewrite Qabs_pos by lra. apply Qle_trans with (two_to 8); [change (two_to 8) with 256%Q; lra|apply two_to_le; cbn; lia]. }
    rewrite E3. cbn [obind].
    assert (R3 : (Qabs (round_to DF64 (255 / inject_Z D) - 255 / inject_Z D) <= unit_q * (255 / inject_Z D))%Q).
    { rewrite <- (Qabs_pos (255 / inject_Z D)) at 3 by lra. apply float_rel; [exact F|]. left. rewrite Qabs_pos by lra.
      apply Qle_shift_div_l; [lra|]. apply Qle_trans with (two_to (elow DF64 + prec DF64 - 1) * two_to 64)%Q.
      - rewrite !(Qmult_comm (two_to (elow DF64 + prec DF64 - 1))). apply Qmult_le_compat_r; [lra|]. pose proof (two_to_pos (elow DF64 + prec DF64 - 1)); lra.
      - vm_compute; discriminate. }
    pose proof (round_to_nonneg DF64 (255 / inject_Z D) ltac:(lra)) as P3. set (k := round_to DF64 (255 / inject_Z D)) in *.
    change (round64 (inject_Z dd)) with (round_to DF64 (inject_Z dd)).
    assert (R1 : (Qabs (round_to DF64 (inject_Z dd) - inject_Z dd) <= unit_q * inject_Z dd)%Q).
    { assert (Pd : (0 <= inject_Z dd)%Q) by (change 0%Q with (inject_Z 0); rewrite <- Zle_Qle; lia).
      rewrite <- (Qabs_pos (inject_Z dd)) at 3 by exact Pd. apply float_rel; [exact F|]. right. exists (dd * 2 ^ 1074).
      rewrite inject_Z_mult, <- two_to_Z by lia. rewrite <- Qmult_assoc, <- two_to_add. change (two_to (1074 + elow DF64)) with 1%Q. ring. }
    assert (Pd : (0 <= inject_Z dd <= inject_Z D)%Q) by (change 0%Q with (inject_Z 0); rewrite <- !Zle_Qle; lia).
    pose proof (round_to_nonneg DF64 (inject_Z dd) (proj1 Pd)) as P1. set (dr := round_to DF64 (inject_Z dd)) in *.
    assert (P4 : (0 <= dr * k <= 2048)%Q).
    { split; [apply Qmult_le_0_compat; assumption|]. assert (W : (255 / inject_Z D * inject_Z D == 255)%Q) by (field; lra). set (w := (255 / inject_Z D)%Q) in *.
      apply Qabs_Qle_condition in R3, R1. assert (k <= 2 * w)%Q by (unfold unit_q in *; lra). assert (dr <= 2 * inject_Z D)%Q by (unfold unit_q in *; lra).
      apply Qle_trans with ((2 * inject_Z D) * (2 * w))%Q; [|lra]. apply Qle_trans with (dr * (2 * w))%Q.
      - rewrite !(Qmult_comm dr). apply Qmult_le_compat_r; assumption.
      - apply Qmult_le_compat_r; lra. }
    assert (E4 : fl DF64 (dr * k) = Some (round_to DF64 (dr * k))).
    { apply fl_some; [exact F|]. rewrite Qabs_pos by lra. eapply Qle_trans; [apply P4|]. change 2048%Q with (two_to 11). apply two_to_le. cbn; lia. }
    rewrite E4. eexists. split; [reflexivity|]. split; [apply round_to_nonneg; lra|].
    pose proof (float_abs DF64 (dr * k) F) as R4. rewrite (Qabs_pos (dr * k)) in R4 by lra.
    assert (Low' : (two_to (elow DF64 - 1) <= unit_q)%Q) by (vm_compute; discriminate). rewrite Es.
    apply (core_scale (inject_Z D) (inject_Z dd) (inject_Z D) dr k); fold unit_q; try assumption; try lra.
    setoid_replace (inject_Z D - inject_Z D)%Q with 0%Q by ring. change (Qabs 0) with 0%Q. unfold unit_q. lra.
Qed.

(** *** order *)
Lemma rescale_mono d inplace lo hi x y r r' : (lo < hi)%Q -> (match d with DInt s b => (b = 4 \/ b = 8) /\ scalable d inplace lo hi | _ => True end) ->
  holds d lo -> holds d hi -> holds d x -> holds d y ->
  (x <= y)%Q -> rescale d inplace lo hi x = Some r -> rescale d inplace lo hi y = Some r' -> (r <= r')%Q.
Proof.
  intros Hlt Hd Hl Hh Hx Hy L. pose proof (clip_mono lo hi x y (Qlt_le_weak _ _ Hlt) L) as M.
  assert (Fl : is_float d -> rescale d inplace lo hi x = Some r -> rescale d inplace lo hi y = Some r' -> (r <= r')%Q).
  { intros F. assert (E : forall z, rescale d inplace lo hi z = obind (fl d (clip_q lo hi z - lo)) (fun diff => obind (fl d (hi - lo)) (fun span =>
     if Qeq_bool span 0 then None else if inplace then obind (fl d (diff * 255)) (fun m => fl d (m / span)) else obind (fl d (255 / span)) (fun k => fl d (diff * k)))))
     by (intros z; destruct d; [destruct F|reflexivity|reflexivity]).
    rewrite !E. destruct (fl d (clip_q lo hi x - lo)) as [a|] eqn:A; [|discriminate]. destruct (fl d (clip_q lo hi y - lo)) as [a'|] eqn:A'; [|discriminate].
    cbn [obind]. destruct (fl d (hi - lo)) as [sp|] eqn:S; [|discriminate]. cbn [obind]. destruct (Qeq_bool sp 0) eqn:Z0; [discriminate|].
    apply fl_inv in A, A', S. apply Qeq_bool_neq in Z0.
    assert (P : (0 < sp)%Q). { assert (0 <= sp)%Q by (rewrite S; apply round_to_nonneg; lra). apply Qnot_le_lt. intros G. apply Z0. lra. }
    assert (La : (a <= a')%Q) by (rewrite A, A'; apply round_to_mono; lra).
    destruct inplace.
    - destruct (fl d (a * 255)) as [m|] eqn:Em; [|discriminate]. destruct (fl d (a' * 255)) as [m'|] eqn:Em'; [|discriminate]. cbn [obind].
      apply fl_inv in Em, Em'. intros H H'. apply fl_inv in H, H'. rewrite H, H'. apply round_to_mono. unfold Qdiv. apply Qmult_le_compat_r.
      + rewrite Em, Em'. apply round_to_mono. lra.
      + apply Qlt_le_weak, Qinv_lt_0_compat, P.
    - destruct (fl d (255 / sp)) as [k|] eqn:Ek; [|discriminate]. cbn [obind]. apply fl_inv in Ek. intros H H'. apply fl_inv in H, H'. rewrite H, H'.
      apply round_to_mono. apply Qmult_le_compat_r; [exact La|]. rewrite Ek. apply round_to_nonneg. apply Qle_shift_div_l; lra. }
  destruct d as [s b| |]; [|apply Fl; exact I|apply Fl; exact I]. clear Fl. destruct Hd as [B [_ Hsc]]. cbv zeta in Hsc.
  pose proof (clip_holds _ lo hi x Hl Hh Hx) as Hc. pose proof (clip_between lo hi x (Qlt_le_weak _ _ Hlt)) as Bc.
  pose proof (clip_holds _ lo hi y Hl Hh Hy) as Hc'. pose proof (clip_between lo hi y (Qlt_le_weak _ _ Hlt)) as Bc'.
  unfold rescale. destruct Hl as (zl & El & _), Hh as (zh & Eh & _), Hc as (zc & Ec & _), Hc' as (zc' & Ec' & _).
  rewrite (int_of_Z _ _ El), (int_of_Z _ _ Eh), (int_of_Z _ _ Ec), (int_of_Z _ _ Ec').
  assert (L1 : zl < zh) by (rewrite Zlt_Qlt; lra). assert (L2 : zl <= zc <= zh) by (split; rewrite Zle_Qle; lra).
  assert (L2' : zl <= zc' <= zh) by (split; rewrite Zle_Qle; lra). assert (L3 : zc <= zc') by (rewrite Zle_Qle; lra).
  assert (ED : (hi - lo == inject_Z (zh - zl))%Q) by (rewrite El, Eh; unfold Z.sub; rewrite inject_Z_plus, inject_Z_opp; ring).
  rewrite ED in Hsc. assert (Sp : (inject_Z (zh - zl) * inject_Z (if inplace then 255 else 1) < inject_Z (2 ^ (if s then 8 * b - 1 else 8 * b)))%Q) by (destruct inplace; exact Hsc).
  apply (int_span s b _ _ B) in Sp as (Sp & W1 & W2); [|lia|destruct inplace; lia].
  rewrite !(wrap_id s b (_ - _)) by (auto using wide_int; unfold int_holds in *; destruct s; lia).
  replace (zh - zl =? 0) with false by (symmetry; apply Z.eqb_neq; lia).
  destruct inplace.
  - rewrite !(wrap_id s b (_ * 255)) by (auto using wide_int; unfold int_holds in *; destruct s; nia).
    assert (Q1 : 0 <= (zc - zl) * 255 / (zh - zl) <= (zc - zl) * 255) by (split; [apply Z.div_pos; lia|apply Z.div_le_upper_bound; nia]).
    assert (Q2 : 0 <= (zc' - zl) * 255 / (zh - zl) <= (zc' - zl) * 255) by (split; [apply Z.div_pos; lia|apply Z.div_le_upper_bound; nia]).
    rewrite !(wrap_id s b (_ / _)) by (auto using wide_int; unfold int_holds in *; destruct s; nia).
    intros H H'. injection H as <-. injection H' as <-. rewrite <- Zle_Qle. apply Z.div_le_mono; lia.
  - destruct (fl DF64 (255 / inject_Z (zh - zl))) as [k|] eqn:Ek; [|discriminate]. cbn [obind]. apply fl_inv in Ek. intros H H'. apply fl_inv in H, H'. rewrite H, H'.
    apply round_to_mono. apply Qmult_le_compat_r.
    + apply (round_to_mono DF64). rewrite <- Zle_Qle. lia.
    + rewrite Ek. apply round_to_nonneg. apply Qle_shift_div_l; [change 0%Q with (inject_Z 0); rewrite <- Zlt_Qlt; lia|]. rewrite Qmult_0_l. discriminate.
Qed.

(** *** bytes *)
Lemma byte_id z : 0 <= z <= 255 -> wrap false 1 z = z.
Proof. intros H. apply wrap_id; [now left|]. cbn. lia. Qed.
Lemma byte_range q : 0 <= byte_of q <= 255.
Proof. unfold byte_of, wrap, imin. pose proof (Z.mod_pos_bound (half_even q - 0) (2 ^ (8 * 1)) ltac:(lia)). lia. Qed.
Lemma shade_range lo hi x : (lo < hi)%Q -> (0 <= shade lo hi x <= 255)%Q.
Proof.
  intros H. rewrite (shade_eq lo hi x H). pose proof (clip_between lo hi x (Qlt_le_weak _ _ H)).
  split; [apply Qle_shift_div_l; lra|apply Qle_shift_div_r; lra].
Qed.
Lemma half_even_byte r s : (0 <= s <= 255)%Q -> (Qabs (r - s) <= 1 # 4096)%Q -> 0 <= half_even r <= 255.
Proof.
  intros Hs H. apply Qabs_Qle_condition in H. pose proof (half_even_near r) as N. apply Qabs_Qle_condition in N.
  assert (G : (-1 < inject_Z (half_even r) < 256)%Q) by lra. change (-1)%Q with (inject_Z (-1)) in G. change 256%Q with (inject_Z 256) in G.
  rewrite <- !Zlt_Qlt in G. lia.
Qed.
Lemma byte_near r s : (0 <= s <= 255)%Q -> (Qabs (r - s) <= 1 # 4096)%Q ->
  0 <= byte_of r <= 255 /\ byte_of r = half_even r /\ (Qabs (inject_Z (byte_of r) - s) <= (1 # 2) + (1 # 4096))%Q.
Proof.
  intros Hs H. split; [apply byte_range|]. assert (E : byte_of r = half_even r) by (unfold byte_of; apply byte_id; eapply half_even_byte; eauto).
  split; [exact E|]. rewrite E. pose proof (half_even_near r) as N. apply Qabs_Qle_condition in N. apply Qabs_Qle_condition in H.
  apply Qabs_Qle_condition. split; lra.
Qed.

(** *** sorting *)
Lemma insert_perm x l : Permutation (x :: l) (insert_q x l).
Proof.
  induction l as [|y l IH]; cbn [insert_q]; [reflexivity|]. destruct (Qle_bool x y); [reflexivity|].
  eapply perm_trans; [apply perm_swap|]. now apply perm_skip.
Qed.
Lemma sort_perm l : Permutation l (sort_q l).
Proof. induction l as [|x l IH]; [reflexivity|]. unfold sort_q in *. cbn [fold_right]. eapply perm_trans; [apply perm_skip, IH|apply insert_perm]. Qed.
Lemma insert_sorted x l : StronglySorted Qle l -> StronglySorted Qle (insert_q x l).
Proof.
  induction 1 as [|y l Hs IH Hf]; cbn [insert_q]; [repeat constructor|]. destruct (Qle_bool x y) eqn:E.
  - apply Qle_bool_iff in E. constructor; [now constructor|]. constructor; [exact E|]. eapply Forall_impl; [|exact Hf]. intros z Hz. eapply Qle_trans; eauto.
  - apply Qle_bool_false in E. constructor; [exact IH|]. apply Forall_forall. intros z Hz.
    apply (Permutation_in _ (Permutation_sym (insert_perm x l))) in Hz. destruct Hz as [<-|Hz]; [lra|]. rewrite Forall_forall in Hf. now apply Hf.
Qed.
Lemma sort_sorted l : StronglySorted Qle (sort_q l).
Proof. induction l as [|x l IH]; [constructor|]. apply insert_sorted, IH. Qed.
Lemma sorted_nth l i j d : StronglySorted Qle l -> (i <= j < List.length l)%nat -> (nth i l d <= nth j l d)%Q.
Proof.
  intros H. revert i j. induction H as [|x l Hs IH Hf]; intros i j [L1 L2]; [cbn in L2; lia|]. cbn [List.length] in L2.
  destruct i as [|i], j as [|j]; cbn [nth]; try apply Qle_refl; [|lia|apply IH; lia].
  rewrite Forall_forall in Hf. apply Hf, nth_In. lia.
Qed.
Lemma filter_none {A} (f : A -> bool) l : (forall x, In x l -> f x = false) -> filter f l = [].
Proof. induction l as [|x l IH]; intros H; [reflexivity|]. cbn [filter]. rewrite (H x (or_introl eq_refl)). apply IH. intros y Hy. apply H. now right. Qed.
Lemma filter_len {A} (f : A -> bool) l : (List.length (filter f l) <= List.length l)%nat.
Proof. induction l as [|x l IH]; cbn [filter]; [reflexivity|]. destruct (f x); cbn; lia. Qed.
Lemma skipn_in {A} (l : list A) i x d : In x (skipn i l) -> exists j, (i <= j < List.length l)%nat /\ nth j l d = x.
Proof.
  intros H. apply In_nth with (d := d) in H as (k & Lk & E). rewrite skipn_length in Lk. exists (i + k)%nat. split; [lia|].
  rewrite <- E, <- (firstn_skipn i l) at 1. rewrite app_nth2; rewrite firstn_length, Nat.min_l by lia; [f_equal; lia|lia].
Qed.
Lemma firstn_in {A} (l : list A) i x d : In x (firstn i l) -> exists j, (j < i)%nat /\ (j < List.length l)%nat /\ nth j l d = x.
Proof.
  intros H. apply In_nth with (d := d) in H as (k & Lk & E). rewrite firstn_length in Lk. exists k. split; [lia|]. split; [lia|].
  rewrite <- E, <- (firstn_skipn i l) at 1. rewrite app_nth1; [reflexivity|]. rewrite firstn_length. lia.
Qed.
Lemma count_low l i x d : StronglySorted Qle l -> (i < List.length l)%nat -> (x <= nth i l d)%Q -> (List.length (filter (fun v => below x v) l) <= i)%nat.
Proof.
  intros S L H. rewrite <- (firstn_skipn i l) at 1. rewrite filter_app, app_length, (filter_none _ (skipn i l)).
  - cbn [List.length]. pose proof (filter_len (fun v => below x v) (firstn i l)) as F. rewrite firstn_length in F. lia.
  - intros v Hv. apply (skipn_in _ _ _ d) in Hv as (j & Lj & <-). unfold below. apply negb_false_iff, Qle_bool_iff.
    eapply Qle_trans; [exact H|]. now apply sorted_nth.
Qed.
Lemma count_high l i x d : StronglySorted Qle l -> (i < List.length l)%nat -> (nth i l d <= x)%Q -> (List.length (filter (fun v => below v x) l) <= List.length l - 1 - i)%nat.
Proof.
  intros S L H. rewrite <- (firstn_skipn (Datatypes.S i) l) at 1. rewrite filter_app, app_length, (filter_none _ (firstn (Datatypes.S i) l)).
  - cbn [List.length]. pose proof (filter_len (fun v => below v x) (skipn (Datatypes.S i) l)) as F. rewrite skipn_length in F. lia.
  - intros v Hv. apply (firstn_in _ _ _ d) in Hv as (j & Lj & Ll & <-). unfold below. apply negb_false_iff, Qle_bool_iff.
    eapply Qle_trans; [|exact H]. apply sorted_nth; [exact S|lia].
Qed.
Lemma count_perm {A} (f : A -> bool) l l' : Permutation l l' -> count f l = count f l'.
Proof.
  unfold count. induction 1 as [|x l l' H IH|x y l|l l' l'' H1 IH1 H2 IH2]; [reflexivity| | |congruence].
  - cbn [filter]. destruct (f x); cbn [List.length]; lia.
  - cbn [filter]. destruct (f x), (f y); reflexivity.
Qed.

(** *** percentiles *)
Lemma trunc_ge q z : (inject_Z z <= q)%Q -> z <= trunc q.
Proof.
  destruct q as [n d]. unfold Qle, trunc. cbn [Qnum Qden inject_Z]. intros H.
  rewrite <- (Z.quot_mul z (Zpos d)) by lia. apply Z.quot_le_mono; lia.
Qed.
Lemma trunc_le q z : (q <= inject_Z z)%Q -> trunc q <= z.
Proof.
  destruct q as [n d]. unfold Qle, trunc. cbn [Qnum Qden inject_Z]. intros H.
  rewrite <- (Z.quot_mul z (Zpos d)) by lia. apply Z.quot_le_mono; lia.
Qed.
Lemma trunc_mono x y : (x <= y)%Q -> trunc x <= trunc y.
Proof.
  destruct x as [n d], y as [m e]. unfold Qle, trunc. cbn [Qnum Qden]. intros H.
  rewrite <- (Z.quot_mul_cancel_r n (Zpos d) (Zpos e)) by lia. rewrite <- (Z.quot_mul_cancel_r m (Zpos e) (Zpos d)) by lia.
  rewrite (Z.mul_comm (Zpos e) (Zpos d)). apply Z.quot_le_mono; lia.
Qed.
Definition to_dtype (d : dt) (x : Q) : Q := match d with DInt _ _ => inject_Z (trunc x) | _ => round_to d x end.
Lemma to_dtype_mono d x y : (x <= y)%Q -> (to_dtype d x <= to_dtype d y)%Q.
Proof. intros H. destruct d; [cbn; rewrite <- Zle_Qle; now apply trunc_mono| |]; now apply round_to_mono. Qed.
Lemma to_dtype_held d a : holds d a -> (to_dtype d a == a)%Q.
Proof.
  intros H. destruct d as [s b| |]; [|now apply round_to_grid|now apply round_to_grid].
  destruct H as (z & E & _). unfold to_dtype. rewrite (trunc_Z _ _ E). now symmetry.
Qed.
Lemma int_holds_between s b x y z : int_holds s b x -> int_holds s b y -> x <= z <= y -> int_holds s b z.
Proof. unfold int_holds. destruct s; lia. Qed.
Lemma to_dtype_between d a b x : holds d a -> holds d b -> (a <= x <= b)%Q -> (a <= to_dtype d x <= b)%Q /\ holds d (to_dtype d x).
Proof.
  intros Ha Hb [L U]. assert (B : (a <= to_dtype d x <= b)%Q).
  { apply (to_dtype_mono d) in L, U. rewrite (to_dtype_held _ _ Ha) in L. rewrite (to_dtype_held _ _ Hb) in U. now split. }
  split; [exact B|]. destruct d as [s n| |].
  - destruct Ha as (za & Ea & Ia), Hb as (zb & Eb & Ib). exists (trunc x). split; [reflexivity|].
    apply (int_holds_between s n za zb); [exact Ia|exact Ib|]. unfold to_dtype in B. rewrite Ea, Eb, <- !Zle_Qle in B. exact B.
  - split; [apply round_ne_on_grid; lia|]. destruct Ha as [_ Ha], Hb as [_ Hb]. apply Qabs_Qle_condition in Ha, Hb. apply Qabs_Qle_condition. lra.
  - split; [apply round_ne_on_grid; lia|]. destruct Ha as [_ Ha], Hb as [_ Hb]. apply Qabs_Qle_condition in Ha, Hb. apply Qabs_Qle_condition. lra.
Qed.
Definition at_rank (s : list Q) (v : Q) : Q :=
  let i := Z.to_nat (Qfloor v) in let a := nth i s 0%Q in let b := nth (S i) s a in (a + (b - a) * (v - inject_Z (Qfloor v)))%Q.
Lemma frac_range v : (0 <= v - inject_Z (Qfloor v) < 1)%Q.
Proof. pose proof (Qfloor_le v). pose proof (Qlt_floor v) as U. rewrite inject_Z_plus in U. change (inject_Z 1) with 1%Q in U. lra. Qed.
Lemma floor_rank n v : (0 <= v <= inject_Z (Z.of_nat n))%Q -> (Z.to_nat (Qfloor v) <= n)%nat /\ 0 <= Qfloor v.
Proof.
  intros [L U]. assert (0 <= Qfloor v) by (change 0 with (Qfloor 0); apply Qfloor_resp_le; exact L).
  assert (Qfloor v <= Z.of_nat n) by (rewrite <- (Qfloor_Z (Z.of_nat n)); apply Qfloor_resp_le; exact U). lia.
Qed.
Lemma at_rank_between s v : StronglySorted Qle s -> s <> [] -> (0 <= v <= inject_Z (Z.of_nat (List.length s - 1)))%Q ->
  let i := Z.to_nat (Qfloor v) in let a := nth i s 0%Q in let b := nth (S i) s a in (i < List.length s)%nat /\ (a <= at_rank s v <= b)%Q.
Proof.
  intros S N B. cbv zeta. destruct (floor_rank _ _ B) as [L Z0]. assert (List.length s <> 0)%nat by (destruct s; [easy|discriminate]).
  set (i := Z.to_nat (Qfloor v)) in *. assert (Li : (i < List.length s)%nat) by lia. split; [exact Li|]. unfold at_rank. fold i.
  pose proof (frac_range v) as F. set (t := (v - inject_Z (Qfloor v))%Q) in *. set (a := nth i s 0%Q).
  assert (Hab : (a <= nth (Datatypes.S i) s a)%Q).
  { destruct (Nat.lt_ge_cases (Datatypes.S i) (List.length s)) as [G|G].
    - rewrite (nth_indep s a 0%Q G). apply sorted_nth; [exact S|lia].
    - rewrite nth_overflow by exact G. apply Qle_refl. }
  set (b := nth (Datatypes.S i) s a) in *. split; nra.
Qed.
Lemma at_rank_mono s v w : StronglySorted Qle s -> s <> [] -> (0 <= v)%Q -> (v <= w)%Q -> (w <= inject_Z (Z.of_nat (List.length s - 1)))%Q -> (at_rank s v <= at_rank s w)%Q.
Proof.
  intros S N B1 B2 B3. destruct (at_rank_between s v S N ltac:(lra)) as (L1 & A1). destruct (at_rank_between s w S N ltac:(lra)) as (L2 & A2).
  cbv zeta in *. pose proof (Qfloor_resp_le _ _ B2) as Lf.
  assert (P : 0 <= Qfloor v) by (change 0 with (Qfloor 0); apply Qfloor_resp_le; exact B1).
  destruct (Z.eq_dec (Qfloor v) (Qfloor w)) as [E|E].
  - unfold at_rank in *. rewrite E in *. cbv zeta in *. set (i := Z.to_nat (Qfloor w)) in *. set (a := nth i s 0%Q) in *. set (b := nth (Datatypes.S i) s a) in *.
    assert (a <= b)%Q by lra. set (f := inject_Z (Qfloor w)) in *. nra.
  - apply Qle_trans with (nth (Datatypes.S (Z.to_nat (Qfloor v))) s (nth (Z.to_nat (Qfloor v)) s 0%Q)); [apply A1|].
    apply Qle_trans with (nth (Z.to_nat (Qfloor w)) s 0%Q); [|apply A2]. rewrite (nth_indep s _ 0%Q) by lia. apply sorted_nth; [exact S|lia].
Qed.
Global Instance at_rank_proper s : Proper (Qeq ==> Qeq) (at_rank s).
Proof. intros v w E. unfold at_rank. rewrite (Qfloor_comp _ _ E). now rewrite E. Qed.
Global Instance trunc_proper : Proper (Qeq ==> eq) trunc.
Proof. intros x y E. apply Z.le_antisymm; apply trunc_mono; rewrite E; apply Qle_refl. Qed.
Global Instance to_dtype_proper d : Proper (Qeq ==> Qeq) (to_dtype d).
Proof. intros x y E. destruct d; cbn [to_dtype]; [now rewrite E| |]; now apply round_to_proper. Qed.
Lemma holds_eq d x y : (x == y)%Q -> holds d x -> holds d y.
Proof.
  intros E H. destruct d as [s b| |].
  - destruct H as (z & Ez & Hz). exists z. split; [now rewrite <- E|exact Hz].
  - destruct H as [(m & k & G) B]. split; [exists m, k; now rewrite <- E|now rewrite <- E].
  - destruct H as [(m & k & G) B]. split; [exists m, k; now rewrite <- E|now rewrite <- E].
Qed.
Lemma valid_shown p : proper_picture p -> valid_values p = Ok (shown_values p) /\ Forall (holds (pdt p)) (shown_values p).
Proof.
  intros [_ H]. unfold valid_values, shown_values.
  assert (G : forall l, (forall c, In c l -> masked c = false -> exists q, val c = Fin q /\ holds (pdt p) q) ->
    rmap (fun c => match val c with Fin q => Ok q | _ => Err OverflowError end) (filter (fun c => negb (masked c)) l) =
      Ok (flat_map (fun c => if masked c then [] else match val c with Fin q => [q] | _ => [] end) l) /\
    Forall (holds (pdt p)) (flat_map (fun c => if masked c then [] else match val c with Fin q => [q] | _ => [] end) l)).
  { induction l as [|c l IH]; intros Hl; [split; [reflexivity|constructor]|]. cbn [filter flat_map].
    destruct IH as [E F]; [intros x Hx; apply Hl; now right|]. destruct (masked c) eqn:M; cbn [negb]; [now split|].
    destruct (Hl c (or_introl eq_refl) M) as (q & Eq & Hq). cbn [rmap]. rewrite Eq. rewrite E. split; [reflexivity|]. now constructor. }
  apply G. intros c Hc. apply in_ravel in Hc as (idx & V & <-). now apply H.
Qed.
Definition ranked (p : picture) (pc : Q) : Q :=
  to_dtype (pdt p) (at_rank (sort_q (shown_values p)) ((pc / 100) * inject_Z (Z.of_nat (List.length (sort_q (shown_values p)) - 1)))).
Lemma bounds_ranked p c1 c2 : proper_picture p -> shown_values p <> [] -> (0 <= c1)%Q -> (0 <= c2)%Q -> (c1 + c2 <= 100)%Q ->
  exists lo hi, find_bounds p (c1, c2) = Ok (Some (lo, hi)) /\ (lo == ranked p c1)%Q /\ (hi == ranked p (100 - c2))%Q.
Proof.
  intros Pp N B1 B2 B3. destruct (valid_shown p Pp) as [E F]. unfold find_bounds. rewrite E. cbn [rbind].
  set (vs := shown_values p) in *. pose proof (sort_perm vs) as Pm. pose proof (sort_sorted vs) as Ss.
  assert (Fs : Forall (holds (pdt p)) (sort_q vs)) by (eapply Permutation_Forall; eauto).
  destruct (sort_q vs) as [|least s'] eqn:Es; [apply Permutation_sym, Permutation_nil in Pm; contradiction|]. cbn [fst snd].
  assert (P1 : forall pc, (0 <= pc <= 100)%Q -> percentile (pdt p) vs pc = Ok (ranked p pc)).
  { intros pc [A B]. unfold percentile, ranked, at_rank. fold vs. rewrite (proj2 (Qle_bool_iff 0 pc) A), (proj2 (Qle_bool_iff pc 100) B). cbn [andb]. rewrite Es. reflexivity. }
  assert (Lo : exists lo, (if Qeq_bool c1 0 then Ok least else percentile (pdt p) vs c1) = Ok lo /\ (lo == ranked p c1)%Q).
  { destruct (Qeq_bool c1 0) eqn:Z0.
    - exists least. split; [reflexivity|]. apply Qeq_bool_eq in Z0. unfold ranked. fold vs. rewrite Es.
      setoid_replace (c1 / 100 * inject_Z (Z.of_nat (List.length (least :: s') - 1)))%Q with 0%Q by (rewrite Z0; field).
      assert (A : (at_rank (least :: s') 0 == least)%Q) by (unfold at_rank; change (Qfloor 0) with 0; cbn [Z.to_nat nth]; ring).
      rewrite A. symmetry. apply to_dtype_held. now inversion Fs.
    - rewrite (P1 c1) by lra. eexists. split; [reflexivity|]. reflexivity. }
  assert (Hi : exists hi, (if Qeq_bool c2 0 then Ok (last (least :: s') least) else percentile (pdt p) vs (100 - c2)%Q) = Ok hi /\ (hi == ranked p (100 - c2))%Q).
  { destruct (Qeq_bool c2 0) eqn:Z0.
    - eexists. split; [reflexivity|]. apply Qeq_bool_eq in Z0. unfold ranked. fold vs. rewrite Es.
      setoid_replace ((100 - c2) / 100 * inject_Z (Z.of_nat (List.length (least :: s') - 1)))%Q with (inject_Z (Z.of_nat (List.length (least :: s') - 1)))
        by (rewrite Z0; field).
      assert (La : last (least :: s') least = nth (List.length (least :: s') - 1) (least :: s') 0%Q).
      { assert (Gl : forall (l : list Q) d d', l <> [] -> last l d = nth (List.length l - 1) l d').
        { induction l as [|x l IH]; intros d d' Hl; [easy|]. destruct l as [|y l]; [reflexivity|]. change (last (x :: y :: l) d) with (last (y :: l) d).
          rewrite (IH d d') by easy. replace (List.length (x :: y :: l) - 1)%nat with (S (List.length (y :: l) - 1)) by (cbn; lia). reflexivity. }
        apply Gl. easy. }
      set (L := least :: s') in *. assert (LL : (List.length L - 1 < List.length L)%nat) by (unfold L; cbn; lia).
      assert (A : (at_rank L (inject_Z (Z.of_nat (List.length L - 1))) == last L least)%Q).
      { unfold at_rank. rewrite Qfloor_Z, Nat2Z.id, La. set (i := (List.length L - 1)%nat). setoid_replace (inject_Z (Z.of_nat i) - inject_Z (Z.of_nat i))%Q with 0%Q by ring. ring. }
      rewrite A. symmetry. apply to_dtype_held. rewrite La. rewrite Forall_forall in Fs. apply Fs, nth_In, LL.
    - rewrite (P1 (100 - c2)%Q) by lra. eexists. split; [reflexivity|]. reflexivity. }
  destruct Lo as (lo & E1 & H1), Hi as (hi & E2 & H2). exists lo, hi. rewrite E1. cbn [rbind]. rewrite E2. cbn [rbind]. auto.
Qed.
Lemma rank_range pc n : (0 <= pc <= 100)%Q -> (0 <= (pc / 100) * inject_Z (Z.of_nat n) <= inject_Z (Z.of_nat n))%Q.
Proof.
  intros H. assert (P : (0 <= inject_Z (Z.of_nat n))%Q) by (change 0%Q with (inject_Z 0); rewrite <- Zle_Qle; lia).
  assert (E : (0 <= pc / 100 <= 1)%Q) by (split; [apply Qle_shift_div_l; lra|apply Qle_shift_div_r; lra]). set (r := (pc / 100)%Q) in *. nra.
Qed.
Lemma ranked_facts p pc : proper_picture p -> shown_values p <> [] -> (0 <= pc <= 100)%Q ->
  let n := inject_Z (Z.of_nat (List.length (shown_values p))) in
  holds (pdt p) (ranked p pc) /\ (exists v, In v (shown_values p) /\ (v <= ranked p pc)%Q) /\ (exists v, In v (shown_values p) /\ (ranked p pc <= v)%Q) /\
  (inject_Z (count (fun v => below (ranked p pc) v) (shown_values p)) <= pc / 100 * (n - 1) + 1)%Q /\
  (inject_Z (count (fun v => below v (ranked p pc)) (shown_values p)) <= (100 - pc) / 100 * (n - 1) + 1)%Q.
Proof.
  intros Pp N B n. destruct (valid_shown p Pp) as [_ F]. unfold ranked. set (vs := shown_values p) in *. pose proof (sort_perm vs) as Pm. pose proof (sort_sorted vs) as Ss.
  assert (Fs : Forall (holds (pdt p)) (sort_q vs)) by (eapply Permutation_Forall; eauto).
  assert (Ns : sort_q vs <> []) by (intros Es; rewrite Es in Pm; apply Permutation_sym, Permutation_nil in Pm; contradiction).
  pose proof (Permutation_length Pm) as Ln. rewrite (count_perm _ _ _ Pm), (count_perm (fun v => below v _) _ _ Pm).
  assert (Hin : forall v, In v (sort_q vs) -> In v vs) by (intros v; apply Permutation_in, Permutation_sym, Pm).
  set (s := sort_q vs) in *. assert (L0 : (0 < List.length s)%nat) by (destruct s; [easy|cbn; lia]).
  set (v := (pc / 100 * inject_Z (Z.of_nat (List.length s - 1)))%Q). pose proof (rank_range pc (List.length s - 1) B) as Rv. fold v in Rv.
  destruct (at_rank_between s v Ss Ns Rv) as (Li & Bx). cbv zeta in *. destruct (floor_rank _ _ Rv) as [_ P0].
  set (i := Z.to_nat (Qfloor v)) in *. set (a := nth i s 0%Q) in *. assert (Ia : In a s) by (apply nth_In, Li).
  assert (Ib : In (nth (S i) s a) s).
  { destruct (Nat.lt_ge_cases (S i) (List.length s)); [now apply nth_In|]. now rewrite nth_overflow. }
  set (b := nth (S i) s a) in *. rewrite Forall_forall in Fs.
  destruct (to_dtype_between (pdt p) a b (at_rank s v) (Fs _ Ia) (Fs _ Ib) Bx) as [[T1 T2] Hh]. set (x := to_dtype (pdt p) (at_rank s v)) in *.
  split; [exact Hh|]. split; [exists a; auto|]. split; [exists b; auto|].
  assert (En : (n - 1 == inject_Z (Z.of_nat (List.length s - 1)))%Q).
  { unfold n. rewrite Ln, Nat2Z.inj_sub by lia. unfold Z.sub. rewrite inject_Z_plus, inject_Z_opp. cbn. ring. }
  rewrite En. fold v. pose proof (Qfloor_le v) as Fl. pose proof (Qlt_floor v) as Fu. rewrite inject_Z_plus in Fu. change (inject_Z 1) with 1%Q in Fu.
  assert (Ei : Qfloor v = Z.of_nat i) by (unfold i; lia). rewrite Ei in Fl, Fu. split.
  - assert (C : count (fun w => below x w) s <= Z.of_nat i + 1).
    { unfold count. destruct (Nat.lt_ge_cases (S i) (List.length s)) as [G|G].
      - assert (Hb : (x <= nth (S i) s 0)%Q) by (unfold b in T2; now rewrite (nth_indep s a 0%Q G) in T2).
        pose proof (count_low s (S i) x 0%Q Ss G Hb). lia.
      - assert (Hb : (x <= nth i s 0)%Q) by (unfold b in T2; rewrite nth_overflow in T2 by exact G; exact T2).
        pose proof (count_low s i x 0%Q Ss Li Hb). lia. }
    rewrite Zle_Qle, inject_Z_plus in C. change (inject_Z 1) with 1%Q in C. lra.
  - assert (C : count (fun w => below w x) s <= Z.of_nat (List.length s - 1) - Z.of_nat i).
    { unfold count. pose proof (count_high s i x 0%Q Ss Li T1). lia. }
    unfold Z.sub in C. rewrite Zle_Qle, inject_Z_plus, inject_Z_opp in C.
    setoid_replace ((100 - pc) / 100 * inject_Z (Z.of_nat (List.length s - 1)))%Q with (inject_Z (Z.of_nat (List.length s - 1)) - v)%Q by (unfold v; field). lra.
Qed.
Lemma ranked_mono p c c' : shown_values p <> [] -> (0 <= c)%Q -> (c <= c')%Q -> (c' <= 100)%Q -> (ranked p c <= ranked p c')%Q.
Proof.
  intros N A B C. unfold ranked. apply to_dtype_mono. set (s := sort_q (shown_values p)).
  assert (Ns : s <> []) by (intros Es; pose proof (sort_perm (shown_values p)) as Pm; fold s in Pm; rewrite Es in Pm; apply Permutation_sym, Permutation_nil in Pm; contradiction).
  apply at_rank_mono; [apply sort_sorted|exact Ns|apply rank_range; lra| |apply rank_range; lra].
  apply Qmult_le_compat_r; [unfold Qdiv; apply Qmult_le_compat_r; [exact B|discriminate]|]. change 0%Q with (inject_Z 0). rewrite <- Zle_Qle. lia.
Qed.
