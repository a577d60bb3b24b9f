(** C87: the values of Uniformly_Sampled fields of PDS4 tables. *)
From Coq Require Import QArith Qabs Lia ZArith Lqa.
From Verif.Base Require Import Py PyFacts Val Float.
From Verif.Model Require Import Types Scaling Pds4Types Sampled.
From Verif.Proofs Require Import Scaling Pds4Types Sampled.
From Verif.Spec Require Import Types Scaling Sampled.
Open Scope Z_scope.

Section Any.
(** whatever powers and logarithms of floats are, and whatever is in memory before *)
Variables (fpow : num -> num -> res num) (log10 : elt -> res num) (fdiv : num -> num -> num) (junk : nat -> elt).
Notation make := (make_uniformly_sampled fpow log10 fdiv junk).
Lemma nonempty {A} (l : list A) n : length l = n -> (0 < n)%nat -> match l with [] => Err IndexError | _ => Ok l end = Ok l.
Proof. destruct l; [cbn; lia|reflexivity]. Qed.

(** *** Linear fields of integers: record [j] has the double nearest to first + j * interval,
    without any accumulated error *)
Theorem C87_linear_integers n field first last interval :
  says_scale field $"linear" -> says_integer field $"first_value" first -> says_integer field $"last_value" last -> says_integer field $"interval" interval ->
  (0 < n)%nat -> eight_bytes first last -> (forall j, (j < n)%nat -> finite (linear_value (inject_Z first) (inject_Z interval) j)) ->
  exists l, make n field = Ok l /\ length l = n /\
  forall j, (j < n)%nat -> exists x, nth_error l j = Some x /\ near_value x (linear_value (inject_Z first) (inject_Z interval) j).
Proof.
  intros Hs Hf Hl Hi Hn H8 Hfin. assert (EQ : forall j, linear_value (inject_Z first) (inject_Z interval) j = inject_Z (first + Z.of_nat j * interval)).
  { intros j. unfold linear_value, inject_Z, Qplus, Qmult. cbn. f_equal. lia. }
  destruct (linear_ints n interval first) as (l & El & Ll & H). { intros j Hj. rewrite <- EQ. now apply Hfin. }
  exists l. unfold make_uniformly_sampled. rewrite (scale_ok _ _ Hs). cbn [rbind]. unfold field_number. unfold says_integer in *. rewrite Hf, Hl, Hi. cbn [number rbind]. rewrite (objects_no _ _ H8). cbn [rbind].
  change (str_eqb $"linear" $"linear") with true. cbv iota. rewrite El. cbn [rbind]. split; [now apply (nonempty l n)|]. split; [exact Ll|]. intros j Hj. rewrite EQ. now apply H.
Qed.
(** ... and integers that no type of numpy has are kept as they are *)
Theorem C87_linear_large n field first last interval :
  says_scale field $"linear" -> says_integer field $"first_value" first -> says_integer field $"last_value" last -> says_integer field $"interval" interval ->
  (0 < n)%nat -> ~ eight_bytes first last -> make n field = Ok (map (fun j => EI (first + Z.of_nat j * interval)) (seq 0 n)).
Proof.
  intros Hs Hf Hl Hi Hn H8. unfold make_uniformly_sampled. rewrite (scale_ok _ _ Hs). cbn [rbind]. unfold field_number. unfold says_integer in *. rewrite Hf, Hl, Hi. cbn [number rbind]. rewrite (objects_yes _ _ H8). cbn [rbind].
  change (str_eqb $"linear" $"linear") with true. cbv iota. rewrite linear_objects. cbn [rbind]. apply (nonempty _ n); [now rewrite map_length, seq_length|exact Hn].
Qed.
(** *** Linear fields whose values are all doubles (for instance, steps of 0.25): exact *)
Theorem C87_linear_exact n field first last interval :
  says_scale field $"linear" -> says_number field $"first_value" first -> says_number field $"last_value" last -> says_number field $"interval" interval ->
  (0 < n)%nat -> (forall a b, says_integer field $"first_value" a -> says_integer field $"last_value" b -> eight_bytes a b) ->
  holds DF64 interval -> (forall j, (j <= n)%nat -> holds DF64 (linear_value first interval j)) ->
  exists l, make n field = Ok l /\ length l = n /\
  forall j, (j < n)%nat -> exists x, nth_error l j = Some x /\ is_value x (linear_value first interval j).
Proof.
  intros Hs Hf Hl Hi Hn H8 Hint Hall. destruct (field_means _ _ _ Hf) as (a & Ea & Ma). destruct (field_means _ _ _ Hl) as (c & Ec & Mc). destruct (field_means _ _ _ Hi) as (b & Eb & Mb).
  destruct (linear_exact n b interval Mb Hint a first Ma Hall) as (l & El & Ll & H). exists l. unfold make_uniformly_sampled. rewrite (scale_ok _ _ Hs). cbn [rbind]. rewrite Ea, Ec, Eb. cbn [rbind].
  assert (O : of_objects a c = Ok false).
  { destruct Hf as [(z & Hz & _)|Hf], Hl as [(z' & Hz' & _)|Hl]; unfold field_number in Ea, Ec.
    - rewrite Hz in Ea. rewrite Hz' in Ec. cbn [number] in Ea, Ec. injection Ea as <-. injection Ec as <-. apply objects_no. now apply H8.
    - rewrite Hl in Ec. injection Ec as <-. apply objects_float. eauto.
    - rewrite Hf in Ea. injection Ea as <-. apply objects_float. eauto.
    - rewrite Hf in Ea. injection Ea as <-. apply objects_float. eauto. }
  rewrite O. cbn [rbind]. change (str_eqb $"linear" $"linear") with true. cbv iota. rewrite El. cbn [rbind]. split; [now apply (nonempty l n)|]. split; [exact Ll|exact H].
Qed.
(** *** Other linear fields: the error of record [j] is at most j times that of one addition *)
Theorem C87_linear_error n field first last interval bound :
  says_scale field $"linear" -> says_number field $"first_value" first -> says_number field $"last_value" last -> says_number field $"interval" interval ->
  (0 < n)%nat -> Z.of_nat n <= 2 ^ 51 -> holds DF64 first -> holds DF64 interval ->
  dict_get field $"first_value" = Some (PFloat first) \/ (dict_get field $"interval" = Some (PFloat interval) /\ dict_get field $"last_value" = Some (PFloat last)) ->
  (two_to (-1000) <= bound)%Q -> (bound <= two_to 1022)%Q -> (forall j, (j <= n)%nat -> (Qabs (linear_value first interval j) <= bound)%Q) ->
  exists l, make n field = Ok l /\ length l = n /\
  forall j, (j < n)%nat -> exists r, nth_error l j = Some (EF (Fin r)) /\ (Qabs (r - linear_value first interval j) <= inject_Z (Z.of_nat j) * bound * two_to (-51))%Q.
Proof.
  intros Hs Hf Hl Hi Hn Hn2 H1 H2 Hfl B1 B2 HB. destruct (field_means _ _ _ Hf) as (a & Ea & Ma). destruct (field_means _ _ _ Hl) as (c & Ec & Mc). destruct (field_means _ _ _ Hi) as (b & Eb & Mb).
  destruct (linear_error n b interval bound Mb H2 Hn2 B1 B2 first HB n 0%nat a first) as (l & El & Ll & H).
  - lia.
  - exact Ma.
  - destruct Hfl as [X|[X _]]; [left|right]; [unfold field_number in Ea; rewrite X in Ea; injection Ea as <-|unfold field_number in Eb; rewrite X in Eb; injection Eb as <-]; eauto.
  - exact H1.
  - unfold linear_value. change (inject_Z (Z.of_nat 0)) with 0%Q. setoid_replace (first - (first + 0 * interval))%Q with 0%Q by ring. change (Qabs 0) with 0%Q. ring_simplify. apply Qle_refl.
  - exists l. unfold make_uniformly_sampled. rewrite (scale_ok _ _ Hs). cbn [rbind]. rewrite Ea, Ec, Eb. cbn [rbind].
    assert (O : of_objects a c = Ok false). { apply objects_float. destruct Hfl as [X|[_ X]]; [left|right]; [unfold field_number in Ea; rewrite X in Ea; injection Ea as <-|unfold field_number in Ec; rewrite X in Ec; injection Ec as <-]; eauto. }
    rewrite O. cbn [rbind]. change (str_eqb $"linear" $"linear") with true. cbv iota. rewrite El. cbn [rbind]. split; [now apply (nonempty l n)|]. split; [exact Ll|exact H].
Qed.
(** *** Logarithmic fields of integers: the double nearest to first * interval ^ j *)
Theorem C87_logarithmic_integers n field first last interval :
  says_scale field $"logarithmic" -> says_integer field $"first_value" first -> says_integer field $"last_value" last -> says_integer field $"interval" interval ->
  (0 < n)%nat -> eight_bytes first last -> (forall j, (j < n)%nat -> finite (inject_Z (logarithmic_value first interval j))) ->
  exists l, make n field = Ok l /\ length l = n /\
  forall j, (j < n)%nat -> exists x, nth_error l j = Some x /\ near_value x (inject_Z (logarithmic_value first interval j)).
Proof.
  intros Hs Hf Hl Hi Hn H8 Hfin.
  destruct (rmap_seq (fun j => do p <- py_pow fpow (EI interval) (EI (Z.of_nat j)); do v <- py_mul (EI first) p; store false v) (fun j x => near_value x (inject_Z (logarithmic_value first interval j))) n) as (l & El & Ll & H).
  { intros j Hj. cbn [py_pow]. rewrite (proj2 (Z.leb_le 0 (Z.of_nat j))) by lia. cbn [rbind py_mul]. exact (store_int _ (Hfin j Hj)). }
  exists l. unfold make_uniformly_sampled. rewrite (scale_ok _ _ Hs). cbn [rbind]. unfold field_number. unfold says_integer in *. rewrite Hf, Hl, Hi. cbn [number rbind]. rewrite (objects_no _ _ H8). cbn [rbind].
  change (str_eqb $"logarithmic" $"linear") with false. change (str_eqb $"logarithmic" $"logarithmic") with true. cbv iota. unfold logarithmic. rewrite El. cbn [rbind]. split; [now apply (nonempty l n)|]. split; [exact Ll|exact H].
Qed.
(** *** Logarithmic fields with a real interval: as exact as the powers are *)
Theorem C87_logarithmic_reals n field first last interval eps power :
  says_scale field $"logarithmic" -> dict_get field $"first_value" = Some (PFloat first) -> says_number field $"last_value" last -> dict_get field $"interval" = Some (PFloat interval) ->
  (0 < n)%nat -> Z.of_nat n <= 2 ^ 53 -> (0 <= eps)%Q ->
  (forall j, (j < n)%nat -> fpow (Fin interval) (Fin (inject_Z (Z.of_nat j))) = Ok (Fin (power j)) /\ (Qabs (power j - Qpower interval (Z.of_nat j)) <= eps * Qabs (Qpower interval (Z.of_nat j)))%Q) ->
  (forall x y y', (y == y')%Q -> fpow x (Fin y) = fpow x (Fin y')) ->
  (forall j, (j < n)%nat -> finite (first * power j)) ->
  exists l, make n field = Ok l /\ length l = n /\
  forall j, (j < n)%nat -> exists r, nth_error l j = Some (EF (Fin r)) /\ nearest DF64 (first * power j) r /\
    (Qabs (first * power j - first * Qpower interval (Z.of_nat j)) <= eps * Qabs (first * Qpower interval (Z.of_nat j)))%Q.
Proof.
  intros Hs Hf Hl Hi Hn Hn2 He Hp Hproper Hfin. destruct (field_means _ _ _ Hl) as (c & Ec & Mc).
  destruct (rmap_seq (fun j => do p <- py_pow fpow (EF (Fin interval)) (EI (Z.of_nat j)); do v <- py_mul (EF (Fin first)) p; store false v)
    (fun j x => exists r, x = EF (Fin r) /\ nearest DF64 (first * power j) r /\ (Qabs (first * power j - first * Qpower interval (Z.of_nat j)) <= eps * Qabs (first * Qpower interval (Z.of_nat j)))%Q) n) as (l & El & Ll & H).
  { intros j Hj. destruct (Hp j Hj) as [P1 P2]. cbn [py_pow as_float rbind].
    assert (HZ : (round64 (inject_Z (Z.of_nat j)) == inject_Z (Z.of_nat j))%Q) by (apply round64_Z; lia).
    destruct (float_ok (inject_Z (Z.of_nat j))) as [EJ _]. { unfold finite. rewrite Qabs_pos by (change 0%Q with (inject_Z 0); rewrite <- Zle_Qle; lia). rewrite <- Zle_Qle. apply Z.le_trans with (2 ^ 53); [lia|]. apply Z.pow_le_mono_r; lia. }
    rewrite EJ. cbn [rbind]. rewrite (Hproper _ _ (inject_Z (Z.of_nat j)) HZ), P1. cbn [rbind py_mul as_float fmul]. destruct (fconv_ok (first * power j) (two_1023 _ (Hfin j Hj))) as [E N]. rewrite E. cbn [store as_float rbind].
    eexists. split; [reflexivity|]. eexists. split; [reflexivity|]. split; [exact N|].
    setoid_replace (first * power j - first * Qpower interval (Z.of_nat j))%Q with (first * (power j - Qpower interval (Z.of_nat j)))%Q by ring. rewrite !Qabs_Qmult.
    setoid_replace (eps * (Qabs first * Qabs (Qpower interval (Z.of_nat j))))%Q with (Qabs first * (eps * Qabs (Qpower interval (Z.of_nat j))))%Q by ring. rewrite !(Qmult_comm (Qabs first)). apply Qmult_le_compat_r; [exact P2|apply Qabs_nonneg]. }
  exists l. unfold make_uniformly_sampled. rewrite (scale_ok _ _ Hs). cbn [rbind]. rewrite Ec. unfold field_number. rewrite Hf, Hi. cbn [number rbind]. rewrite (objects_float _ _) by eauto. cbn [rbind].
  change (str_eqb $"logarithmic" $"linear") with false. change (str_eqb $"logarithmic" $"logarithmic") with true. cbv iota. unfold logarithmic. rewrite El. cbn [rbind]. split; [now apply (nonempty l n)|]. split; [exact Ll|].
  intros j Hj. destruct (H j Hj) as (x & Ex & r & -> & Hr). eauto.
Qed.
(** *** Exponential fields of integers: b ^ x = b ^ first + j * interval, that is, x is the
    quotient of the logarithms of both *)
Theorem C87_exponential_integers n field first last interval base logs log_base :
  says_scale field $"exponential" -> says_integer field $"first_value" first -> says_integer field $"last_value" last -> says_integer field $"interval" interval -> says_integer field $"base" base ->
  (0 < n)%nat -> 0 <= first -> eight_bytes first last -> log10 (EI base) = Ok log_base -> ~ (exists q, log_base = Fin q /\ (q == 0)%Q) ->
  (forall j, (j < n)%nat -> log10 (EI (base ^ first + Z.of_nat j * interval)) = Ok (logs j)) ->
  make n field = Ok (map (fun j => EF (fdiv (logs j) log_base)) (seq 0 n)).
Proof.
  intros Hs Hf Hl Hi Hb Hn F0 H8 Lb Nz Hlog. unfold make_uniformly_sampled. rewrite (scale_ok _ _ Hs). cbn [rbind]. unfold field_number. unfold says_integer in *. rewrite Hf, Hl, Hi, Hb. cbn [number rbind]. rewrite (objects_no _ _ H8). cbn [rbind].
  change (str_eqb $"exponential" $"linear") with false. change (str_eqb $"exponential" $"logarithmic") with false. change (str_eqb $"exponential" $"exponential") with true. cbv iota.
  unfold exponential. cbn [py_pow]. rewrite (proj2 (Z.leb_le 0 first) F0). cbn [rbind]. rewrite Lb. cbn [rbind].
  assert (Z0 : is_zero log_base = false). { unfold is_zero. destruct log_base as [q| |]; try reflexivity. destruct (Qeq_bool q 0) eqn:E; [|reflexivity]. apply Qeq_bool_eq in E. exfalso. apply Nz. eauto. }
  rewrite Z0. cbv iota. cbn [py_mul py_add rbind store as_float].
  assert (R : forall k m, (forall j, (k <= j < k + m)%nat -> log10 (EI (base ^ first + Z.of_nat j * interval)) = Ok (logs j)) ->
    rmap (fun j => do l <- log10 (EI (base ^ first + Z.of_nat j * interval)); Ok (EF (fdiv l log_base))) (seq k m) = Ok (map (fun j => EF (fdiv (logs j) log_base)) (seq k m))).
  { intros k m. revert k. induction m as [|m IH]; intros k H; [reflexivity|]. cbn [seq rmap map]. rewrite (H k) by lia. cbn [rbind]. rewrite IH by (intros j Hj; apply H; lia). reflexivity. }
  rewrite R by (intros j Hj; apply Hlog; lia). cbn [rbind]. apply (nonempty _ n); [now rewrite map_length, seq_length|exact Hn].
Qed.
(** *** A table without records has no such field: IndexError *)
Theorem C87_no_records field l : make 0 field <> Ok l.
Proof.
  unfold make_uniformly_sampled. destruct (scale_of field) as [s|]; [|discriminate]. cbn [rbind]. destruct (field_number field $"first_value") as [a|]; [|discriminate]. destruct (field_number field $"last_value") as [b|]; [|discriminate].
  destruct (field_number field $"interval") as [i|]; [|discriminate]. cbn [rbind]. destruct (of_objects a b) as [o|]; [|discriminate]. cbn [rbind].
  destruct (str_eqb s $"linear"); [discriminate|]. destruct (str_eqb s $"logarithmic"); [discriminate|]. destruct (str_eqb s $"exponential"); [|discriminate].
  destruct (field_number field $"base") as [b0|]; [|discriminate]. cbn [rbind]. unfold exponential. destruct (py_pow fpow b0 a); [|discriminate]. cbn [rbind]. destruct (log10 b0); discriminate.
Qed.
(** *** A scale of another name is not refused: the values are what was in memory *)
Theorem C87_scale_refuted n field s first last interval :
  says_scale field s -> ~ In s [$"linear"; $"logarithmic"; $"exponential"] -> says_number field $"first_value" first -> says_number field $"last_value" last -> says_number field $"interval" interval ->
  (0 < n)%nat -> make n field = Ok (map junk (seq 0 n)).
Proof.
  intros Hs Hk Hf Hl Hi Hn. destruct (field_means _ _ _ Hf) as (a & Ea & Ma). destruct (field_means _ _ _ Hl) as (c & Ec & Mc). destruct (field_means _ _ _ Hi) as (b & Eb & Mb).
  unfold make_uniformly_sampled. rewrite (scale_ok _ _ Hs). cbn [rbind]. rewrite Ea, Ec, Eb. cbn [rbind].
  assert (O : exists o, of_objects a c = Ok o). { unfold of_objects. destruct a as [za|], c as [zc|]; eexists; reflexivity. }
  destruct O as [o ->]. cbn [rbind]. cbn [In] in Hk. rewrite (proj2 (str_eqb_neq s $"linear")), (proj2 (str_eqb_neq s $"logarithmic")), (proj2 (str_eqb_neq s $"exponential")) by (intros ->; apply Hk; auto). cbn [rbind].
  apply (nonempty _ n); [now rewrite map_length, seq_length|exact Hn].
Qed.
End Any.
Print Assumptions C87_linear_integers.
Print Assumptions C87_linear_large.
Print Assumptions C87_linear_exact.
Print Assumptions C87_linear_error.
Print Assumptions C87_logarithmic_integers.
Print Assumptions C87_logarithmic_reals.
Print Assumptions C87_exponential_integers.
Print Assumptions C87_no_records.
Print Assumptions C87_scale_refuted.

(** *** Cases *)
Definition no_pow : num -> num -> res num := fun _ _ => Err OverflowError.
Definition no_log : elt -> res num := fun _ => Err ValueError.
Definition no_div : num -> num -> num := fun _ _ => NaN.
Definition left_over : nat -> elt := fun j => EF (Fin (inject_Z (Z.of_nat j + 7))).
Definition field_of (scale : string) (first last interval : pv) : list (str * pv) :=
  [($"name", PStr $"TIME"); ($"first_value", first); ($"last_value", last); ($"interval", interval); ($"scale", PStr $scale)].
Lemma some_scale sc s f l i : lower $sc = s -> says_scale (field_of sc f l i) s.
Proof. right. exists $sc. now split. Qed.
Example C87_linear_meets : let f := field_of "Linear" (PInt (-3)) (PInt 7) (PInt 5) in
  says_scale f $"linear" /\ eight_bytes (-3) 7 /\ (forall j, (j < 3)%nat -> finite (linear_value (inject_Z (-3)) (inject_Z 5) j)) /\
  exists l, make_uniformly_sampled no_pow no_log no_div left_over 3 f = Ok l /\ Forall2 is_value l [-3; 2; 7]%Q.
Proof.
  split; [apply some_scale; reflexivity|]. split; [left; split; reflexivity|]. split.
  { intros [|[|[|j]]] Hj; try lia; vm_compute; discriminate. }
  eexists. split; [vm_compute; reflexivity|]. repeat constructor; eexists; (split; [reflexivity|]); reflexivity.
Qed.
Example C87_linear_large_meets : ~ eight_bytes (2 ^ 64) 0 /\
  make_uniformly_sampled no_pow no_log no_div left_over 2 (field_of "LINEAR" (PInt (2 ^ 64)) (PInt 0) (PInt (-1))) = Ok [EI (2 ^ 64); EI (2 ^ 64 - 1)].
Proof. split; [unfold eight_bytes; change (2 ^ 63) with 9223372036854775808; change (2 ^ 64) with 18446744073709551616; lia|]. vm_compute. reflexivity. Qed.
Lemma quarter j : (j <= 4)%nat -> holds DF64 (linear_value (1 # 2) (1 # 4) j).
Proof. intros Hj. split; [exists (2 + Z.of_nat j), (-2); split; [|split; [|lia]]|]; destruct j as [|[|[|[|[|j]]]]]; try lia; vm_compute; reflexivity || discriminate. Qed.
Example C87_linear_exact_meets : let f := field_of "Linear" (PFloat (1 # 2)) (PFloat (3 # 2)) (PFloat (1 # 4)) in
  holds DF64 (1 # 4) /\ (forall j, (j <= 4)%nat -> holds DF64 (linear_value (1 # 2) (1 # 4) j)) /\
  exists l, make_uniformly_sampled no_pow no_log no_div left_over 4 f = Ok l /\ Forall2 is_value l [1 # 2; 3 # 4; 1; 5 # 4]%Q.
Proof.
  split; [split; [exists 1, (-2); split; [reflexivity|split; [reflexivity|lia]]|vm_compute; discriminate]|]. split; [exact quarter|].
  eexists. split; [vm_compute; reflexivity|]. repeat constructor; eexists; (split; [reflexivity|]); reflexivity.
Qed.
Example C87_logarithmic_meets : let f := field_of "Logarithmic" (PInt 5) (PInt 500) (PInt 10) in
  says_scale f $"logarithmic" /\ (forall j, (j < 3)%nat -> finite (inject_Z (logarithmic_value 5 10 j))) /\
  exists l, make_uniformly_sampled no_pow no_log no_div left_over 3 f = Ok l /\ Forall2 is_value l [5; 50; 500]%Q.
Proof.
  split; [apply some_scale; reflexivity|]. split.
  { intros [|[|[|j]]] Hj; try lia; vm_compute; discriminate. }
  eexists. split; [vm_compute; reflexivity|]. repeat constructor; eexists; (split; [reflexivity|]); reflexivity.
Qed.
Example C87_exponential_meets : let f := ($"base", PInt 2) :: field_of "Exponential" (PInt 3) (PInt 5) (PInt 8) in
  let lg := fun x : elt => match x with EI z => Ok (Fin (inject_Z (Z.log2 z))) | _ => Err ValueError end in
  says_scale f $"exponential" /\ lg (EI 2) = Ok (Fin 1) /\ (forall j, (j < 4)%nat -> lg (EI (2 ^ 3 + Z.of_nat j * 8)) = Ok (Fin (inject_Z (nth j [3; 4; 4; 5] 0)))) /\
  make_uniformly_sampled no_pow lg (fun a b => a) left_over 4 f = Ok [EF (Fin 3); EF (Fin 4); EF (Fin 4); EF (Fin 5)].
Proof.
  split; [right; exists $"Exponential"; split; reflexivity|]. split; [reflexivity|]. split; [|vm_compute; reflexivity]. intros [|[|[|[|j]]]] Hj; try lia; reflexivity.
Qed.
(** a power that is exact, of a half *)
Definition half_pow : num -> num -> res num := fun x y => match x, y with Fin a, Fin b => Ok (Fin (Qpower a (Qround.Qfloor b))) | _, _ => Ok NaN end.
Example C87_logarithmic_reals_meets :
  (forall j, (j < 3)%nat -> half_pow (Fin (1 # 2)) (Fin (inject_Z (Z.of_nat j))) = Ok (Fin (Qpower (1 # 2) (Z.of_nat j)))) /\
  (forall x y y', (y == y')%Q -> half_pow x (Fin y) = half_pow x (Fin y')) /\
  exists l, make_uniformly_sampled half_pow no_log no_div left_over 3 (field_of "Logarithmic" (PFloat (3 # 2)) (PFloat (3 # 8)) (PFloat (1 # 2))) = Ok l /\ Forall2 is_value l [3 # 2; 3 # 4; 3 # 8]%Q.
Proof.
  split; [|split].
  - intros [|[|[|j]]] Hj; try lia; vm_compute; reflexivity.
  - intros [a| |s] y y' E; try reflexivity. cbn [half_pow]. now rewrite E.
  - eexists. split; [vm_compute; reflexivity|]. repeat constructor; eexists; (split; [reflexivity|]); reflexivity.
Qed.
Example C87_scale_meets : ~ In $"cubic" [$"linear"; $"logarithmic"; $"exponential"] /\
  make_uniformly_sampled no_pow no_log no_div left_over 2 (field_of "Cubic" (PInt 0) (PInt 1) (PInt 1)) = Ok [EF (Fin 7); EF (Fin 8)].
Proof. split; [intros [E|[E|[E|[]]]]; discriminate|]. vm_compute. reflexivity. Qed.

(** *** Errors do add up: the values are not the doubles nearest to those of the standard *)
Definition tenth : Q := 3602879701896397 # 36028797018963968.
Lemma tenth_double : holds DF64 tenth.
Proof. split; [exists 3602879701896397, (-55); split; [vm_compute; reflexivity|split; [vm_compute; reflexivity|lia]]|vm_compute; discriminate]. Qed.
Example C87_linear_error_meets : let f := field_of "Linear" (PInt 0) (PFloat (4 # 5)) (PFloat tenth) in
  says_scale f $"linear" /\ holds DF64 tenth /\ (dict_get f $"interval" = Some (PFloat tenth) /\ dict_get f $"last_value" = Some (PFloat (4 # 5))) /\
  (forall j, (j <= 9)%nat -> (Qabs (linear_value 0 tenth j) <= 1)%Q) /\
  exists l, make_uniformly_sampled no_pow no_log no_div left_over 9 f = Ok l /\ length l = 9%nat.
Proof.
  split; [apply some_scale; reflexivity|]. split; [exact tenth_double|]. split; [split; reflexivity|]. split; [|eexists; split; [vm_compute; reflexivity|reflexivity]].
  intros j Hj. do 10 (destruct j as [|j]; [vm_compute; discriminate|]). lia.
Qed.
Theorem C87_drift_refuted :
  ~ (forall fpow log10 fdiv junk n field first last interval l,
      says_scale field $"linear" -> says_number field $"first_value" first -> says_number field $"last_value" last -> says_number field $"interval" interval ->
      holds DF64 first -> holds DF64 interval -> make_uniformly_sampled fpow log10 fdiv junk n field = Ok l ->
      forall j x, nth_error l j = Some x -> near_value x (linear_value first interval j)).
Proof.
  intros H. pose (f := field_of "Linear" (PInt 0) (PFloat (4 # 5)) (PFloat tenth)).
  destruct (make_uniformly_sampled no_pow no_log no_div left_over 9 f) as [l|e] eqn:E; [|vm_compute in E; discriminate].
  assert (T : exists r, nth_error l 8 = Some (EF (Fin r))).
  { vm_compute in E. injection E as <-. eexists. reflexivity. }
  destruct T as (r & Er). specialize (H no_pow no_log no_div left_over 9%nat f 0%Q (4 # 5) tenth l).
  destruct (H ltac:(apply some_scale; reflexivity) ltac:(left; exists 0; split; reflexivity) ltac:(right; reflexivity) ltac:(right; reflexivity)) with (j := 8%nat) (x := EF (Fin r)) as (r' & Er' & [_ N]).
  - split; [exists 0, 0; split; [reflexivity|split; [reflexivity|lia]]|vm_compute; discriminate].
  - exact tenth_double.
  - exact E.
  - exact Er.
  - injection Er' as <-. pose (y := 3602879701896397 # 4503599627370496).
    assert (Hy : holds DF64 y) by (split; [exists 3602879701896397, (-52); split; [vm_compute; reflexivity|split; [vm_compute; reflexivity|lia]]|vm_compute; discriminate]).
    specialize (N y Hy). clear - N Er E.
    assert (X : Qle_bool (Qabs (r - linear_value 0 tenth 8)) (Qabs (y - linear_value 0 tenth 8)) = false).
    { vm_compute in E. injection E as <-. injection Er as <-. vm_compute. reflexivity. }
    apply Qle_bool_iff in N. congruence.
Qed.
Print Assumptions C87_drift_refuted.
