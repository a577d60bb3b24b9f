From Coq Require Import QArith Qabs Lia ZArith Lqa.
From Verif.Base Require Import Py PyFacts Val Float.
From Verif.Model Require Import Types Scaling Pds4Types Sampled.
From Verif.Proofs Require Import Scaling Pds4Types.
From Verif.Spec Require Import Types Scaling Sampled.
Open Scope Z_scope.

Lemma scale_ok field s : says_scale field s -> scale_of field = Ok s.
Proof. unfold scale_of. intros [[-> ->]|(t & -> & <-)]; reflexivity. Qed.
Lemma objects_no a b : eight_bytes a b -> of_objects (EI a) (EI b) = Ok false.
Proof.
  intros H. unfold of_objects, min_type_list, fold1. cbn [fold_left rbind]. unfold min_int_type.
  set (lo := Z.min a b). set (m := Z.max (Z.abs lo) (Z.abs (Z.max a b))).
  assert (M : m <= 9223372036854775807 \/ (m <= 18446744073709551615 /\ 0 <= lo)).
  { unfold m, lo. change (2 ^ 63) with 9223372036854775808 in H. change (2 ^ 64) with 18446744073709551616 in H. unfold eight_bytes in H. cbn in H. lia. }
  destruct M as [M|[M M']].
  - rewrite (proj2 (Z.leb_le m 9223372036854775807) M). cbv iota. repeat (match goal with |- context [if ?c then _ else _] => match type of c with bool => destruct c end end); reflexivity.
  - rewrite (proj2 (Z.leb_le m 18446744073709551615) M), (proj2 (Z.leb_le 0 lo) M'). cbn [andb]. cbv iota. repeat (match goal with |- context [if ?c then _ else _] => match type of c with bool => destruct c end end); reflexivity.
Qed.
Lemma objects_yes a b : ~ eight_bytes a b -> of_objects (EI a) (EI b) = Ok true.
Proof.
  intros H. unfold of_objects, min_type_list, fold1. cbn [fold_left rbind]. unfold min_int_type.
  set (lo := Z.min a b). set (m := Z.max (Z.abs lo) (Z.abs (Z.max a b))).
  assert (M : 9223372036854775807 < m /\ (18446744073709551615 < m \/ lo < 0)).
  { unfold m, lo. unfold eight_bytes in H. change (2 ^ 63) with 9223372036854775808 in H. change (2 ^ 64) with 18446744073709551616 in H. lia. }
  destruct M as [M1 M2]. repeat (match goal with |- context [m <=? ?c] => rewrite (proj2 (Z.leb_gt m c)) by lia end).
  destruct (Z.leb_spec m 18446744073709551615); cbn [andb]; [|reflexivity]. rewrite (proj2 (Z.leb_gt 0 lo)) by lia. reflexivity.
Qed.
Lemma objects_float a b : (exists x, a = EF x) \/ (exists x, b = EF x) -> of_objects a b = Ok false.
Proof. intros [[x ->]|[x ->]]; [reflexivity|]. destruct a; reflexivity. Qed.
Lemma two_1023 q : finite q -> (Qabs q <= two_to 1023)%Q.
Proof. unfold finite. rewrite (two_to_Z 1023) by lia. auto. Qed.
Lemma float_ok q : finite q -> to_float DF64 q = Ok (Fin (round_to DF64 q)) /\ nearest DF64 q (round_to DF64 q).
Proof. intros H. destruct (to_float_ok DF64 q I (two_1023 _ H)) as [E N]. split; assumption. Qed.
Lemma store_int z : finite (inject_Z z) -> exists x, store false (EI z) = Ok x /\ near_value x (inject_Z z).
Proof. intros H. destruct (float_ok _ H) as [E N]. unfold store. cbn [as_float]. rewrite E. cbn [rbind]. eexists. split; [reflexivity|]. eexists. split; [reflexivity|exact N]. Qed.

(** ** linear *)
Lemma linear_ints n i : forall f, (forall j, (j < n)%nat -> finite (inject_Z (f + Z.of_nat j * i))) ->
  exists l, linear false n (EI f) (EI i) = Ok l /\ length l = n /\ forall j, (j < n)%nat -> exists x, nth_error l j = Some x /\ near_value x (inject_Z (f + Z.of_nat j * i)).
Proof.
  induction n as [|n IH]; intros f H; [exists []; split; [reflexivity|]; split; [reflexivity|]; intros j Hj; lia|].
  destruct (store_int f) as (x & Ex & Nx). { specialize (H 0%nat ltac:(lia)). now rewrite Z.mul_0_l, Z.add_0_r in H. }
  destruct (IH (f + i)) as (l & El & Ll & Hl). { intros j Hj. specialize (H (S j) ltac:(lia)). replace (f + i + Z.of_nat j * i) with (f + Z.of_nat (S j) * i) by lia. exact H. }
  exists (x :: l). cbn [linear py_add]. rewrite Ex. cbn [rbind]. rewrite El. cbn [rbind]. split; [reflexivity|]. split; [cbn [length]; lia|].
  intros [|j] Hj; cbn [nth_error]; [exists x; split; [reflexivity|]; now rewrite Z.mul_0_l, Z.add_0_r|]. destruct (Hl j ltac:(lia)) as (y & Ey & Ny). exists y. split; [exact Ey|].
  replace (f + Z.of_nat (S j) * i) with (f + i + Z.of_nat j * i) by lia. exact Ny.
Qed.
Lemma linear_objects n i : forall f, linear true n (EI f) (EI i) = Ok (map (fun j => EI (f + Z.of_nat j * i)) (seq 0 n)).
Proof.
  induction n as [|n IH]; intros f; [reflexivity|]. cbn [linear store py_add rbind]. rewrite IH. cbn [rbind seq map]. rewrite Z.mul_0_l, Z.add_0_r. do 2 f_equal.
  rewrite <- seq_shift, map_map. apply map_ext. intros j. f_equal. lia.
Qed.
(** a number of a label, as Python has it *)
Definition means (x : elt) (q : Q) : Prop := (exists z, x = EI z /\ (q == inject_Z z)%Q) \/ exists r, x = EF (Fin r) /\ (r == q)%Q.
Lemma field_means field k q : says_number field k q -> exists x, field_number field k = Ok x /\ means x q.
Proof. unfold field_number. intros [(z & -> & E)| -> ]; cbn [number]; eexists; (split; [reflexivity|]); [left; eauto|right; eexists; split; reflexivity]. Qed.
Lemma fconv_holds q q' : holds DF64 q' -> (q == q')%Q -> exists r, fconv DF64 q = Fin r /\ (r == q')%Q.
Proof.
  intros [G B] E. assert (R : (round_to DF64 q == q')%Q). { rewrite E. apply (round_to_grid DF64); [exact I|split; assumption]. }
  unfold fconv. cbv zeta. assert (L : Qle_bool (Qabs (round_to DF64 q)) (fmax DF64) = true) by (apply Qle_bool_iff; rewrite R; exact B). rewrite L. eauto.
Qed.
Lemma float_means x q : means x q -> holds DF64 q -> exists r, as_float x = Ok (Fin r) /\ (r == q)%Q.
Proof.
  intros [(z & -> & E)|(r & -> & E)] H; cbn [as_float]; [|eauto]. destruct H as [G B]. unfold to_float. cbv zeta.
  assert (R : (round_to DF64 (inject_Z z) == q)%Q). { rewrite <- E. apply (round_to_grid DF64); [exact I|split; assumption]. }
  assert (L : Qle_bool (Qabs (round_to DF64 (inject_Z z))) (fmax DF64) = true) by (apply Qle_bool_iff; rewrite R; exact B). rewrite L. eauto.
Qed.
Lemma add_means a b x y : means a x -> means b y -> holds DF64 x -> holds DF64 y -> holds DF64 (x + y) -> exists c, py_add a b = Ok c /\ means c (x + y).
Proof.
  intros Ma Mb Hx Hy Hs. destruct (float_means _ _ Ma Hx) as (ra & Ea & Ra). destruct (float_means _ _ Mb Hy) as (rb & Eb & Rb).
  assert (F : exists c, (do x <- as_float a; do y <- as_float b; Ok (EF (fadd x y))) = Ok c /\ means c (x + y)).
  { rewrite Ea, Eb. cbn [rbind fadd]. destruct (fconv_holds (ra + rb) (x + y) Hs) as (r & E & R); [now rewrite Ra, Rb|]. rewrite E. eexists. split; [reflexivity|]. right. eauto. }
  destruct Ma as [(z & -> & E)|(r & -> & E)]; [|exact F]. destruct Mb as [(z' & -> & E')|(r & -> & E')]; [|exact F].
  eexists. split; [reflexivity|]. left. exists (z + z'). split; [reflexivity|]. rewrite inject_Z_plus, E, E'. reflexivity.
Qed.
Lemma store_means x q : means x q -> holds DF64 q -> exists y, store false x = Ok y /\ is_value y q.
Proof. intros M H. destruct (float_means _ _ M H) as (r & E & R). unfold store. rewrite E. cbn [rbind]. eexists. split; [reflexivity|]. exists r. now split. Qed.
Global Instance means_proper x : Proper (Qeq ==> iff) (means x).
Proof. intros a b E. unfold means. split; intros [(z & -> & H)|(r & -> & H)]; [left; exists z|right; exists r|left; exists z|right; exists r]; (split; [reflexivity|]); rewrite ?E in *; assumption. Qed.
Lemma holds_eq q q' : (q == q')%Q -> holds DF64 q -> holds DF64 q'.
Proof. intros E [(m & k & G & H) B]. split; [exists m, k; split; [now rewrite <- E|exact H]|now rewrite <- E]. Qed.
Lemma linear_exact n b i : means b i -> holds DF64 i -> forall a f, means a f -> (forall j, (j <= n)%nat -> holds DF64 (linear_value f i j)) ->
  exists l, linear false n a b = Ok l /\ length l = n /\ forall j, (j < n)%nat -> exists x, nth_error l j = Some x /\ is_value x (linear_value f i j).
Proof.
  intros Mb Hi. induction n as [|n IH]; intros a f Ma H; [exists []; split; [reflexivity|]; split; [reflexivity|]; intros j Hj; lia|].
  assert (H0 : holds DF64 f). { eapply holds_eq; [|exact (H 0%nat ltac:(lia))]. unfold linear_value. cbn. ring. }
  assert (H1 : holds DF64 (f + i)). { eapply holds_eq; [|exact (H 1%nat ltac:(lia))]. unfold linear_value. change (inject_Z (Z.of_nat 1)) with 1%Q. ring. }
  assert (SV : forall j, (linear_value (f + i) i j == linear_value f i (S j))%Q). { intros j. unfold linear_value. rewrite Nat2Z.inj_succ. unfold Z.succ. rewrite inject_Z_plus. ring. }
  destruct (store_means _ _ Ma H0) as (x & Ex & Nx). destruct (add_means _ _ _ _ Ma Mb H0 Hi H1) as (c & Ec & Mc).
  destruct (IH c (f + i)%Q Mc) as (l & El & Ll & Hl). { intros j Hj. eapply holds_eq; [symmetry; apply SV|]. apply H. lia. }
  exists (x :: l). cbn [linear]. rewrite Ex. cbn [rbind]. rewrite Ec. cbn [rbind]. rewrite El. cbn [rbind]. split; [reflexivity|]. split; [cbn [length]; lia|].
  intros [|j] Hj; cbn [nth_error].
  - exists x. split; [reflexivity|]. destruct Nx as (r & -> & R). exists r. split; [reflexivity|]. rewrite R. unfold linear_value. cbn. ring.
  - destruct (Hl j ltac:(lia)) as (y & Ey & (r & -> & R)). eexists. split; [exact Ey|]. exists r. split; [reflexivity|]. now rewrite R, SV.
Qed.

(** ** the error of adding up *)
Lemma round_err q : (Qabs (round64 q - q) <= Qabs q * two_to (-53) + two_to (-1075))%Q.
Proof.
  unfold round64, round_ne. destruct (Qeq_bool q 0) eqn:Z0.
  { apply Qeq_bool_eq in Z0. rewrite Z0. change (Qabs (0 - 0)) with 0%Q. change (Qabs 0) with 0%Q. pose proof (two_to_pos (-1075)). lra. }
  apply Qeq_bool_neq in Z0. set (k := last_bit 53 (-1074) q). pose proof (two_to_pos k) as Pk.
  assert (E : (Qabs (inject_Z (half_even (q / two_to k)) * two_to k - q) <= (1 # 2) * two_to k)%Q).
  { setoid_replace (inject_Z (half_even (q / two_to k)) * two_to k - q)%Q with ((inject_Z (half_even (q / two_to k)) - q / two_to k) * two_to k)%Q by (field; apply two_to_nz).
    rewrite Qabs_Qmult, (Qabs_pos (two_to k)) by lra. apply Qmult_le_compat_r; [apply half_even_near|lra]. }
  eapply Qle_trans; [exact E|]. destruct (ilog2_spec q Z0) as [L _].
  assert (H1 : ((1 # 2) * two_to k == two_to (k - 1))%Q). { replace k with (1 + (k - 1)) at 1 by lia. rewrite two_to_add. change (two_to 1) with 2%Q. ring. }
  rewrite H1. pose proof (two_to_pos (-53)) as P53. pose proof (two_to_pos (-1075)) as P1. pose proof (Qabs_nonneg q) as PQ.
  unfold k, last_bit. destruct (Z.max_spec (ilog2 q - (53 - 1)) (-1074)) as [[_ ->]|[_ ->]].
  - change (-1074 - 1) with (-1075). nra.
  - replace (ilog2 q - (53 - 1) - 1) with (ilog2 q + -53) by lia. rewrite two_to_add. nra.
Qed.
Lemma float_sum a b v i : means a v -> means b i -> (exists r, a = EF (Fin r)) \/ (exists r, b = EF (Fin r)) -> holds DF64 v -> holds DF64 i -> finite (v + i) ->
  exists r s, py_add a b = Ok (EF (Fin r)) /\ (s == v + i)%Q /\ r = round64 s /\ holds DF64 r.
Proof.
  intros Ma Mb Fl Hv Hi Fi. destruct (float_means _ _ Ma Hv) as (ra & Ea & Ra). destruct (float_means _ _ Mb Hi) as (rb & Eb & Rb).
  assert (F : (do x <- as_float a; do y <- as_float b; Ok (EF (fadd x y))) = Ok (EF (fconv DF64 (ra + rb)))) by (rewrite Ea, Eb; reflexivity).
  assert (G : py_add a b = Ok (EF (fconv DF64 (ra + rb)))). { destruct Fl as [[r ->]|[r ->]]; [exact F|]. destruct a; exact F. }
  destruct (fconv_ok (ra + rb)) as [E N]; [apply two_1023; unfold finite in *; now rewrite Ra, Rb|]. rewrite E in G. exists (round_to DF64 (ra + rb)), (ra + rb)%Q.
  split; [exact G|]. split; [now rewrite Ra, Rb|]. split; [reflexivity|]. apply N.
Qed.
Lemma linear_error n b i B : means b i -> holds DF64 i -> Z.of_nat n <= 2 ^ 51 -> (two_to (-1000) <= B)%Q -> (B <= two_to 1022)%Q -> forall x0,
  (forall j, (j <= n)%nat -> (Qabs (linear_value x0 i j) <= B)%Q) -> forall m k a v, (k + m = n)%nat -> means a v -> (exists r, a = EF (Fin r)) \/ (exists r, b = EF (Fin r)) -> holds DF64 v ->
  (Qabs (v - linear_value x0 i k) <= inject_Z (Z.of_nat k) * B * two_to (-51))%Q ->
  exists l, linear false m a b = Ok l /\ length l = m /\ forall j, (j < m)%nat -> exists r, nth_error l j = Some (EF (Fin r)) /\ (Qabs (r - linear_value x0 i (k + j)) <= inject_Z (Z.of_nat (k + j)) * B * two_to (-51))%Q.
Proof.
  intros Mb Hi Hn B1 B2 x0 HB. assert (PB : (0 < B)%Q) by (pose proof (two_to_pos (-1000)); lra).
  induction m as [|m IH]; intros k a v Hk Ma Fl Hv E; [exists []; split; [reflexivity|]; split; [reflexivity|]; intros j Hj; lia|].
  destruct (float_means _ _ Ma Hv) as (r0 & E0 & R0).
  assert (SV : (linear_value x0 i (S k) == linear_value x0 i k + i)%Q). { unfold linear_value. rewrite Nat2Z.inj_succ. unfold Z.succ. rewrite inject_Z_plus. ring. }
  assert (KB : (inject_Z (Z.of_nat k) * two_to (-51) <= 1)%Q).
  { assert (T : (inject_Z (2 ^ 51) * two_to (-51) == 1)%Q) by (vm_compute; reflexivity). rewrite <- T. apply Qmult_le_compat_r; [|pose proof (two_to_pos (-51)); lra]. rewrite <- Zle_Qle. lia. }
  assert (KP : (0 <= inject_Z (Z.of_nat k))%Q) by (change 0%Q with (inject_Z 0); rewrite <- Zle_Qle; lia).
  pose proof (HB (S k) ltac:(lia)) as BS. rewrite SV in BS.
  assert (EB : (Qabs (v - linear_value x0 i k) <= B)%Q). { eapply Qle_trans; [exact E|]. setoid_replace (inject_Z (Z.of_nat k) * B * two_to (-51))%Q with (inject_Z (Z.of_nat k) * two_to (-51) * B)%Q by ring. nra. }
  assert (VB : (Qabs (v + i) <= 2 * B)%Q).
  { setoid_replace (v + i)%Q with ((v - linear_value x0 i k) + (linear_value x0 i k + i))%Q by ring. eapply Qle_trans; [apply Qabs_triangle|]. lra. }
  destruct (float_sum a b v i Ma Mb Fl Hv Hi) as (r & s & Er & Es & Rr & Hr). { unfold finite. eapply Qle_trans; [exact VB|]. rewrite <- (two_to_Z 1023) by lia. change 1023 with (1 + 1022). rewrite two_to_add. change (two_to 1) with 2%Q. lra. }
  assert (E' : (Qabs (r - linear_value x0 i (S k)) <= inject_Z (Z.of_nat (S k)) * B * two_to (-51))%Q).
  { rewrite SV. setoid_replace (r - (linear_value x0 i k + i))%Q with ((r - s) + (v - linear_value x0 i k))%Q by (rewrite Es; ring). eapply Qle_trans; [apply Qabs_triangle|].
    pose proof (round_err s) as RE. rewrite <- Rr in RE. assert (AS : (Qabs s <= 2 * B)%Q) by (now rewrite Es).
    assert (T1 : (two_to (-53) * 2 == two_to (-51) * (1 # 2))%Q) by (vm_compute; reflexivity).
    assert (T2 : (two_to (-1075) == two_to (-1000) * two_to (-75))%Q) by (rewrite <- two_to_add; reflexivity).
    assert (T3 : (two_to (-75) <= two_to (-51) * (1 # 2))%Q) by (vm_compute; discriminate).
    pose proof (two_to_pos (-53)) as P53. pose proof (two_to_pos (-75)) as P75. pose proof (two_to_pos (-51)) as P51. pose proof (two_to_pos (-1000)) as P1000.
    rewrite Nat2Z.inj_succ. unfold Z.succ. rewrite inject_Z_plus. change (inject_Z 1) with 1%Q.
    assert (X1 : (Qabs s * two_to (-53) <= B * (two_to (-51) * (1 # 2)))%Q). { rewrite <- T1. setoid_replace (B * (two_to (-53) * 2))%Q with (2 * B * two_to (-53))%Q by ring. apply Qmult_le_compat_r; [exact AS|lra]. }
    assert (X2 : (two_to (-1075) <= B * (two_to (-51) * (1 # 2)))%Q). { rewrite T2. apply Qle_trans with (B * two_to (-75))%Q; [apply Qmult_le_compat_r; lra|]. rewrite !(Qmult_comm B). apply Qmult_le_compat_r; lra. }
    lra. }
  destruct (IH (S k) (EF (Fin r)) r ltac:(lia)) as (l & El & Ll & Hl); [right; exists r; split; reflexivity|left; eauto|exact Hr|exact E'|].
  exists (EF (Fin r0) :: l). cbn [linear]. unfold store at 1. rewrite E0. cbn [rbind]. rewrite Er. cbn [rbind]. rewrite El. cbn [rbind]. split; [reflexivity|]. split; [cbn [length]; lia|].
  intros [|j] Hj; cbn [nth_error].
  - exists r0. split; [reflexivity|]. rewrite Nat.add_0_r, R0. exact E.
  - destruct (Hl j ltac:(lia)) as (y & Ey & Ny). exists y. split; [exact Ey|]. now rewrite Nat.add_succ_r.
Qed.

(** ** logarithmic *)
Lemma rmap_seq {A} (g : nat -> res A) (P : nat -> A -> Prop) n : (forall j, (j < n)%nat -> exists x, g j = Ok x /\ P j x) ->
  exists l, rmap g (seq 0 n) = Ok l /\ length l = n /\ forall j, (j < n)%nat -> exists x, nth_error l j = Some x /\ P j x.
Proof.
  assert (G : forall n k, (forall j, (k <= j < k + n)%nat -> exists x, g j = Ok x /\ P j x) ->
    exists l, rmap g (seq k n) = Ok l /\ length l = n /\ forall j, (j < n)%nat -> exists x, nth_error l j = Some x /\ P (k + j)%nat x).
  { clear n. induction n as [|n IH]; intros k H; [exists []; split; [reflexivity|]; split; [reflexivity|]; intros j Hj; lia|].
    destruct (H k ltac:(lia)) as (x & Ex & Px). destruct (IH (S k)) as (l & El & Ll & Hl). { intros j Hj. apply H. lia. }
    exists (x :: l). cbn [seq rmap]. rewrite Ex. cbn [rbind]. rewrite El. cbn [rbind]. split; [reflexivity|]. split; [cbn [length]; lia|].
    intros [|j] Hj; cbn [nth_error]; [exists x; split; [reflexivity|]; now rewrite Nat.add_0_r|]. destruct (Hl j ltac:(lia)) as (y & Ey & Py). exists y. split; [exact Ey|]. now rewrite Nat.add_succ_r. }
  intros H. apply (G n 0%nat). intros j Hj. apply H. lia.
Qed.
