(** Properties C27-C30: special constants and scaling. *)
From Coq Require Import QArith Qabs Lqa Lia.
From Verif.Base Require Import Py PyFacts Val Numpy Float.
From Verif.Model Require Import Types Scaling.
From Verif.Spec Require Import Scaling.
From Verif.Proofs Require Import Scaling.
Open Scope Z_scope.

Definition vec (d : dt) (l : list Q) : ndarray :=
  mkNd d (mkArr [List.length l] (fun idx => mkCell (Fin (nth (hd 0%nat idx) l 0%Q)) false)).

Lemma ok_with {A} (x : res A) (P : A -> Prop) : match x with Ok r => P r | Err _ => False end -> exists r, x = Ok r /\ P r.
Proof. destruct x as [r|]; [|easy]. intros H. now exists r. Qed.

(** ** C28: value * scale + offset *)
(** no scaling: the array itself, however the label says it *)
Theorem C28_unscaled block a ip fd s o : says block $"SCALING_FACTOR" 1 s -> says block $"OFFSET" 0 o ->
  (scalar_q s == 1)%Q -> (scalar_q o == 0)%Q -> scale_array block a ip fd = Ok a.
Proof. intros Hs Ho E1 E0. apply scale_array_unscaled with (s := s) (o := o); try assumption. now split. Qed.
Print Assumptions C28_unscaled.
Example C28_unscaled_meets : exists s o,
  says [($"OFFSET", PStr $" n/a ")] $"SCALING_FACTOR" 1 s /\ says [($"OFFSET", PStr $" n/a ")] $"OFFSET" 0 o /\
  (scalar_q s == 1)%Q /\ (scalar_q o == 0)%Q.
Proof.
  exists (SI 1), (SI 0). split; [now apply says_missing|]. split; [|split; reflexivity].
  apply says_blank with (t := $" n/a "); [reflexivity|]. right. left. vm_compute. reflexivity.
Qed.

(** integers by integers: exact if the results fit the array's type *)
Theorem C28_integers block a fd sg b s o : dtype a = DInt sg b -> well_typed a ->
  says block $"SCALING_FACTOR" 1 (SI s) -> says block $"OFFSET" 0 (SI o) -> int_holds sg b s -> int_holds sg b o ->
  (forall idx q, valid (shape (elems a)) idx -> masked (at_ (elems a) idx) = false -> val (at_ (elems a) idx) = Fin q ->
     holds (dtype a) (q * inject_Z s + inject_Z o)) ->
  exists r, scale_array block a false fd = Ok r /\ dtype r = dtype a /\
    scaled_by (fun _ => exactly (inject_Z s) (inject_Z o)) a r.
Proof.
  intros D W Hs Ho Is Io Hr.
  destruct (unscaled_dec (SI s) (SI o)) as [U|U].
  { exists a. split; [now apply scale_array_unscaled with (s := SI s) (o := SI o)|]. split; [reflexivity|].
    split; [reflexivity|]. intros idx V x y. split; [reflexivity|]. intros M. destruct W as [_ W]. specialize (W idx V).
    unfold y, x in *. destruct (val (at_ (elems a) idx)) as [q| |]; [|rewrite D in W; easy|rewrite D in W; easy].
    destruct U as [U1 U0]. cbn in U1, U0. exists q. split; [reflexivity|]. rewrite U1, U0. ring. }
  destruct (mul_add_int a sg b s o D W Is Io) as (r & E & Dr & Sr & Vr).
  exists r. split; [|split; [congruence|]].
  { apply (scale_array_num block a fd (SI s) (SI o)); try assumption. unfold casting_to_float. rewrite D. exact E. }
  split; [assumption|]. intros idx V x y. specialize (Vr idx V). cbv zeta in Vr. fold x y in Vr.
  destruct (masked x) eqn:M; [rewrite Vr; split; [assumption|discriminate]|].
  destruct Vr as (q & Eq & ->). split; [reflexivity|]. intros _. rewrite Eq. cbn [val exactly].
  eexists. split; [reflexivity|]. destruct W as [P W]. specialize (W idx V). fold x in W. rewrite Eq, D in W.
  destruct W as (z & Hz & _). specialize (Hr idx q V M Eq). rewrite D in Hr. destruct Hr as (w & Hw & Bw).
  assert (Ew : (z * s + o)%Z = w).
  { assert (inject_Z (z * s + o) == inject_Z w)%Q by (rewrite <- Hw, Hz, inject_Z_plus, inject_Z_mult; reflexivity).
    unfold Qeq in H. cbn in H. lia. }
  rewrite (int_of_Z _ _ Hz), Ew, Hw. rewrite D in P. rewrite wrap_id by assumption. reflexivity.
Qed.
Print Assumptions C28_integers.
Example C28_integers_meets : exists r,
  scale_array [($"SCALING_FACTOR", PInt 3); ($"OFFSET", PInt (-7))] (vec (DInt true 2) [inject_Z 100; inject_Z (-4)]) false None = Ok r /\
  map val (ravel (elems r)) = [Fin (inject_Z 293); Fin (inject_Z (-19))].
Proof. apply ok_with. vm_compute. reflexivity. Qed.

(** floating-point results: every step is correctly rounded.  The result type is the
    array's own for floats; for integers it is the one asked for, or double *)
Theorem C28_floats block a fd D s o :
  well_typed a -> says block $"SCALING_FACTOR" 1 s -> says block $"OFFSET" 0 o -> ~ unscaled s o ->
  is_float D ->
  (D = dtype a \/
   (exists sg b, dtype a = DInt sg b) /\ (fd = Some D /\ ~ (exists z w, s = SI z /\ o = SI w) \/ fd = None /\ D = DF64 /\ exists q, s = SF q)) ->
  moderate D (scalar_q s) -> moderate D (scalar_q o) ->
  (forall idx q, valid (shape (elems a)) idx -> masked (at_ (elems a) idx) = false -> val (at_ (elems a) idx) = Fin q ->
     moderate D (2 * (q * scalar_q s))) ->
  exists r, scale_array block a false fd = Ok r /\ dtype r = D /\
    scaled_by (fun _ => float_scaled D (scalar_q s) (scalar_q o)) a r.
Proof.
  intros W Hs Ho U F HD Ms Mo Mx.
  assert (Half : forall d q, moderate d (2 * q) -> moderate d q).
  { intros d q. unfold moderate. rewrite Qabs_Qmult. change (Qabs 2) with 2%Q. pose proof (Qabs_nonneg q).
    destruct d; intros H1; lra. }
  assert (Direct : forall a', a' = a -> D = promote (dtype a) s ->
            casting_to_float a (FNum s) (FNum o) = false \/ fd = None ->
            exists r, scale_array block a false fd = Ok r /\ dtype r = D /\ scaled_by (fun _ => float_scaled D (scalar_q s) (scalar_q o)) a r).
  { intros a' -> ED HC. destruct (mul_add_float a s o D ED F W Ms Mo) as (r & E & Dr & Sr).
    { intros. now apply Half, (Mx idx). }
    exists r. split; [|now split]. apply (scale_array_num block a fd s o r Hs Ho U). cbv zeta.
    destruct HC as [->| ->]; [exact E|]. destruct (casting_to_float _ _ _); exact E. }
  destruct HD as [->|[(sg & b & Ed) [[Ef NI]|(Ef & -> & q & ->)]]].
  - apply (Direct a eq_refl); [destruct (dtype a); [easy|reflexivity|reflexivity]|]. left. unfold casting_to_float.
    destruct (dtype a); [easy|reflexivity|reflexivity].
  - (* integers, converted first *)
    assert (NF : ~ is_float (dtype a)) by (rewrite Ed; easy).
    destruct (astype_float D a F W NF) as [W' V'].
    assert (C : casting_to_float a (FNum s) (FNum o) = true).
    { unfold casting_to_float. rewrite Ed. destruct s as [z|q]; [|reflexivity]. destruct o as [w|q]; [|reflexivity]. exfalso. apply NI. now exists z, w. }
    destruct (mul_add_float (astype D a) s o D) as (r & E & Dr & Sr & Vr); try assumption.
    { cbn [astype dtype]. destruct D; [easy|reflexivity|reflexivity]. }
    { intros idx q0 V M Eq. cbn [astype elems shape at_ masked val] in V, M, Eq. specialize (Mx idx).
      destruct (val (at_ (elems a) idx)) as [q| |] eqn:Ev; [|destruct W as [_ W]; specialize (W idx V); rewrite Ev, Ed in W; easy
                                                            |destruct W as [_ W]; specialize (W idx V); rewrite Ev, Ed in W; easy].
      specialize (Mx q V M eq_refl). destruct (V' idx V q Ev) as [Eq' _]. cbn [astype elems at_ val] in Eq'. rewrite Ev in Eq'. rewrite Eq' in Eq.
      injection Eq as <-. unfold moderate in *. eapply Qle_trans; [|exact Mx]. rewrite !Qabs_Qmult. change (Qabs 2) with 2%Q.
      pose proof (round_to_double D q F) as R. pose proof (Qabs_nonneg (scalar_q s)).
      apply Qle_trans with ((2 * Qabs q) * Qabs (scalar_q s))%Q; [now apply Qmult_le_compat_r|lra]. }
    exists r. split; [|split; [assumption|]].
    { apply (scale_array_num block a fd s o r Hs Ho U). cbv zeta. rewrite C, Ef. exact E. }
    split; [exact Sr|]. intros idx V x y. specialize (Vr idx V). cbv zeta in Vr. fold y in Vr.
    destruct Vr as [M Vr]. cbn [astype elems at_ masked] in M, Vr. fold x in M, Vr. split; [exact M|]. intros Mf. specialize (Vr Mf).
    destruct (val x) as [q| |] eqn:Ev; [|destruct W as [_ W]; specialize (W idx V); fold x in W; rewrite Ev, Ed in W; easy
                                        |destruct W as [_ W]; specialize (W idx V); fold x in W; rewrite Ev, Ed in W; easy].
    destruct (V' idx V q Ev) as [Eq' Nq]. cbn [astype elems at_ val] in Eq'. fold x in Eq'. rewrite Ev in Eq'. cbn [val] in Vr. rewrite Eq' in Vr.
    destruct Vr as (x' & s' & o' & m & r' & -> & Nx & Rest). exists x', s', o', m, r'. split; [reflexivity|]. split; [|exact Rest].
    destruct Nq as [Hq Nq]. pose proof (nearest_held _ _ _ Nx Hq) as Ex. split; [apply Nx|]. intros y' Hy'. rewrite Ex. now apply Nq.
  - apply (Direct a eq_refl); [now rewrite Ed|]. right. exact Ef.
Qed.
Print Assumptions C28_floats.
Example C28_floats_meets : exists r,
  scale_array [($"SCALING_FACTOR", PDict [($"value", PFloat (1 # 4)); ($"units", PStr $"W")])] (vec (DInt true 2) [inject_Z 3; inject_Z (-4)]) false None = Ok r /\
  dtype r = DF64 /\ Forall2 (fun c q => match val c with Fin x => (x == q)%Q | _ => False end) (ravel (elems r)) [(3 # 4)%Q; (-1)%Q].
Proof. apply ok_with. vm_compute. split; [reflexivity|]. repeat constructor. Qed.
(** so it is x * s + o exactly when the type can hold the intermediate results *)
Theorem C28_exact D s o q r : float_scaled D s o (Fin q) r ->
  holds D q -> holds D s -> holds D o -> holds D (q * s) -> holds D (q * s + o) ->
  exists r', r = Fin r' /\ (r' == q * s + o)%Q.
Proof. exact (float_scaled_exact D s o q r). Qed.
Print Assumptions C28_exact.
(** integers times an integer plus a fraction: the product is an integer of the
    array's type, the sum a double *)
Theorem C28_integer_product block a sg b s f : dtype a = DInt sg b -> well_typed a ->
  says block $"SCALING_FACTOR" 1 (SI s) -> says block $"OFFSET" 0 (SF f) -> ~ unscaled (SI s) (SF f) ->
  int_holds sg b s -> moderate DF64 f ->
  (forall idx q, valid (shape (elems a)) idx -> masked (at_ (elems a) idx) = false -> val (at_ (elems a) idx) = Fin q ->
     holds (dtype a) (q * inject_Z s)) ->
  exists r, scale_array block a false None = Ok r /\ dtype r = DF64 /\
    scaled_by (fun _ x y => exists q p f' y', x = Fin q /\ y = Fin y' /\
       nearest DF64 (q * inject_Z s) p /\ nearest DF64 f f' /\ nearest DF64 (p + f') y') a r.
Proof.
  intros D [P W] Hs Ho U Is Mf Hp. rewrite D in P. cbn in P.
  assert (W1 : forall idx, valid (shape (elems a)) idx -> exists z, val (at_ (elems a) idx) = Fin z).
  { intros idx V. specialize (W idx V). rewrite D in W. destruct (val _); [eexists; reflexivity| |]; easy. }
  destruct (array_op_total OMul (SI s) a) as [m Em].
  { rewrite D. intros ? ? ? [= <- <-] [= <-]. now apply in_range_holds. }
  { intros idx V. destruct (W1 idx V) as [z Ez]. rewrite D. unfold cell_op. destruct (masked _); [eexists; reflexivity|].
    rewrite Ez. cbn. eexists. reflexivity. }
  destruct (array_op_inv _ _ _ _ Em) as (Dm & Sm & Vm). rewrite D in Dm, Vm. cbn [promote] in Dm.
  destruct (to_float_ok DF64 f I (moderate_top _ _ Mf)) as [Ef Nf].
  assert (St : forall idx, valid (shape (elems a)) idx -> let x := at_ (elems a) idx in
    if masked x then at_ (elems m) idx = x else exists q w, val x = Fin q /\ (inject_Z w == q * inject_Z s)%Q /\
      at_ (elems m) idx = mkCell (Fin (inject_Z w)) false /\ int_holds sg b w).
  { intros idx V x. specialize (Vm idx V). destruct (W1 idx V) as [q Eq]. unfold cell_op in Vm. fold x in Vm, Eq.
    destruct (masked x) eqn:M; [congruence|]. rewrite Eq in Vm. cbn [elem_op rbind] in Vm.
    specialize (Hp idx q V M Eq). rewrite D in Hp. destruct Hp as (w & Hw & Bw). specialize (W idx V). fold x in W. rewrite Eq, D in W.
    destruct W as (z & Hz & _). assert (Ew : (z * s)%Z = w).
    { assert (inject_Z (z * s) == inject_Z w)%Q by (rewrite <- Hw, Hz, inject_Z_mult; reflexivity). unfold Qeq in H. cbn in H. lia. }
    rewrite (int_of_Z _ _ Hz), Ew, (wrap_id _ _ _ P Bw) in Vm. exists q, w. split; [assumption|]. split; [now rewrite Hw|].
    split; [congruence|assumption]. }
  assert (Add1 : forall w, int_holds sg b w -> exists y', elem_op OAdd (DInt sg b) (SF f) (Fin (inject_Z w)) = Ok (Fin y') /\
     exists p f', nearest DF64 (inject_Z w) p /\ nearest DF64 f f' /\ nearest DF64 (p + f') y').
  { intros w Bw. rewrite elem_op_float by exact I. cbn [promote]. cbv zeta. cbn [scalar_q]. rewrite Ef. cbn [rbind q_op].
    assert (Np : nearest DF64 (inject_Z w) (round_to DF64 (inject_Z w))).
    { apply (nearest_elem (DInt sg b)); [exact P|exact I|now exists w|easy]. }
    assert (Bp : (Qabs (round_to DF64 (inject_Z w)) <= two_to 64)%Q).
    { apply round_to_bound; [exact I|lia|]. rewrite two_to_Z by lia. change (Qabs (inject_Z w)) with (inject_Z (Z.abs w)).
      rewrite <- Zle_Qle. now apply (int_holds_bound sg b). }
    assert (Bf : (Qabs (round_to DF64 f) <= two_to 1000)%Q) by (apply round_to_bound; [exact I|lia|exact (moderate_mid DF64 f Mf)]).
    destruct (to_float_ok DF64 (round_to DF64 (inject_Z w) + round_to DF64 f) I) as [Er Nr].
    { eapply Qle_trans; [apply Qabs_triangle|]. apply Qle_trans with (two_to 1001); [|apply two_to_le; cbn; lia].
      assert (two_to 64 <= two_to 1000)%Q by (apply two_to_le; lia). change 1001%Z with (1000 + 1)%Z. rewrite two_to_add.
      change (two_to 1) with 2%Q. lra. }
    rewrite Er. eexists. split; [reflexivity|]. exists (round_to DF64 (inject_Z w)), (round_to DF64 f). now split; [|split]. }
  destruct (array_op_total OAdd (SF f) m) as [r Er].
  { rewrite Dm. intros ? ? ? _ [=]. }
  { rewrite Sm. intros idx V. specialize (St idx V). cbv zeta in St. rewrite Dm. unfold cell_op.
    destruct (masked (at_ (elems a) idx)) eqn:M; [rewrite St, M; eexists; reflexivity|].
    destruct St as (q & w & _ & _ & -> & Bw). cbn [masked val]. destruct (Add1 w Bw) as (y' & -> & _). eexists. reflexivity. }
  destruct (array_op_inv _ _ _ _ Er) as (Dr & Sr & Vr). rewrite Dm in Dr, Vr. cbn [promote] in Dr.
  exists r. split; [|split; [assumption|split; [congruence|]]].
  { apply (scale_array_num block a None (SI s) (SF f) r Hs Ho U). cbv zeta.
    assert (mul_add a (SI s) (SF f) = Ok r) by (unfold mul_add; rewrite Em; exact Er). destruct (casting_to_float _ _ _); assumption. }
  intros idx V x y. specialize (St idx V). rewrite Sm in Vr. specialize (Vr idx V). cbv zeta in St. fold x in St. unfold cell_op in Vr. fold y in Vr.
  destruct (masked x) eqn:M.
  - rewrite St, M in Vr. assert (Q : y = x) by congruence. rewrite Q. split; [assumption|discriminate].
  - destruct St as (q & w & Eq & Hw & Ec & Bw). rewrite Ec in Vr. cbn [masked val] in Vr. destruct (Add1 w Bw) as (y' & E' & p & f' & Np & Nf' & Nr).
    rewrite E' in Vr. cbn [rbind] in Vr. assert (Q : y = mkCell (Fin y') false) by congruence. rewrite Q. split; [reflexivity|]. intros _.
    exists q, p, f', y'. split; [assumption|]. split; [reflexivity|]. split; [|now split].
    split; [apply Np|]. intros y0 Hy0. destruct Np as [_ Np]. specialize (Np y0 Hy0). now rewrite Hw in Np.
Qed.
Print Assumptions C28_integer_product.
Example C28_integer_product_meets : exists r,
  scale_array [($"SCALING_FACTOR", PInt 2); ($"OFFSET", PFloat (1 # 2))] (vec (DInt false 1) [inject_Z 3]) false None = Ok r /\ dtype r = DF64.
Proof. apply ok_with. vm_compute. reflexivity. Qed.

(** one factor per plane of a 3-D array.  Integers become what was asked for, or
    doubles if all factors are fractions *)
Theorem C28_planes block a fd D s o n rows cols :
  well_typed a -> shape (elems a) = [n; rows; cols] -> (1 < n)%nat ->
  says_planes block $"SCALING_FACTOR" s -> says_planes block $"OFFSET" o -> List.length s = n -> List.length o = n ->
  is_float D ->
  (D = dtype a \/ ~ is_float (dtype a) /\ (fd = Some D \/ fd = None /\ D = DF64 /\ Forall (fun c => exists q, c = SF q) s)) ->
  Forall (fun c => moderate D (scalar_q c)) s -> Forall (fun c => moderate D (scalar_q c)) o ->
  (forall i idx q c, valid (shape (elems a)) (i :: idx) -> nth_error s i = Some c -> masked (at_ (elems a) (i :: idx)) = false ->
     val (at_ (elems a) (i :: idx)) = Fin q -> moderate D (2 * (q * scalar_q c))) ->
  exists r, scale_array block a false fd = Ok r /\ dtype r = D /\
    scaled_by (fun idx x y => forall i c k, hd_error idx = Some i -> nth_error s i = Some c -> nth_error o i = Some k ->
                 float_scaled D (scalar_q c) (scalar_q k) x y) a r.
Proof.
  intros W Sh N Hs Ho Ls Lo F HD Ms Mo Mx.
  assert (Half : forall d q, moderate d (2 * q) -> moderate d q).
  { intros d q. unfold moderate. rewrite Qabs_Qmult. change (Qabs 2) with 2%Q. pose proof (Qabs_nonneg q).
    destruct d; intros H1; lra. }
  assert (Direct : (D = dtype a \/ D = DF64 /\ Forall (fun c => exists q, c = SF q) s /\ ~ is_float (dtype a)) ->
            casting_to_float a (FList s) (FList o) = false \/ fd = None ->
            exists r, scale_array block a false fd = Ok r /\ dtype r = D /\
              scaled_by (fun idx x y => forall i c k, hd_error idx = Some i -> nth_error s i = Some c -> nth_error o i = Some k ->
                 float_scaled D (scalar_q c) (scalar_q k) x y) a r).
  { intros ED HC. destruct (copy_scale_planes_float a n rows cols s o D Sh W Ls Lo N F ED Ms Mo) as (r & E & Dr & Sr).
    { intros i idx q c V Ec M Eq. now apply Half, (Mx i idx). }
    exists r. split; [|now split]. apply (says_planes_nonunit a o s block fd a Hs Ho); [|exact E].
    destruct HC as [->| ->]; [reflexivity|]. now destruct (casting_to_float _ _ _). }
  destruct HD as [->|[NF [Ef|(Ef & -> & Fs)]]].
  - apply Direct; [now left|]. left. unfold casting_to_float. destruct (dtype a); [easy|reflexivity|reflexivity].
  - assert (Ed : exists sg b, dtype a = DInt sg b) by (destruct (dtype a); [eauto|now destruct NF|now destruct NF]). destruct Ed as (sg & b & Ed).
    destruct (astype_float D a F W NF) as [W' V'].
    assert (Fin_ : forall idx, valid (shape (elems a)) idx -> exists q, val (at_ (elems a) idx) = Fin q).
    { intros idx V. destruct W as [_ W]. specialize (W idx V). rewrite Ed in W. destruct (val _); [eauto|easy|easy]. }
    destruct (copy_scale_planes_float (astype D a) n rows cols s o D) as (r & E & Dr & Sr & Vr); try assumption.
    { now left. }
    { intros i idx q0 c V Ec M Eq. cbn [astype elems shape] in V. destruct (Fin_ _ V) as [q Ev]. destruct (V' _ V q Ev) as [Eq' _].
      rewrite Eq' in Eq. injection Eq as <-. cbn [astype elems at_ masked] in M. specialize (Mx i idx q c V Ec M Ev).
      unfold moderate in *. eapply Qle_trans; [|exact Mx]. rewrite !Qabs_Qmult. change (Qabs 2) with 2%Q.
      pose proof (round_to_double D q F) as R. pose proof (Qabs_nonneg (scalar_q c)).
      apply Qle_trans with ((2 * Qabs q) * Qabs (scalar_q c))%Q; [now apply Qmult_le_compat_r|lra]. }
    exists r. split; [|split; [assumption|]].
    { apply (says_planes_nonunit a o s block fd (astype D a) Hs Ho); [|exact E]. unfold casting_to_float. now rewrite Ed, Ef. }
    split; [exact Sr|]. intros idx V x y. specialize (Vr idx V). cbv zeta in Vr. fold y in Vr. destruct Vr as [Vm Vr].
    cbn [astype elems at_ masked] in Vm, Vr. fold x in Vm, Vr. split; [exact Vm|]. intros Mf i c k Ei Ec Ek. specialize (Vr Mf i c k Ei Ec Ek).
    destruct (Fin_ idx V) as [q Ev]. destruct (V' idx V q Ev) as [Eq' Nq]. cbn [astype elems at_ val] in Eq', Vr. fold x in Ev, Eq'. rewrite Eq' in Vr. rewrite Ev.
    destruct Vr as (x' & s' & o' & m & r' & -> & Nx & Rest). exists x', s', o', m, r'. split; [reflexivity|]. split; [|exact Rest].
    destruct Nq as [Hq Nq]. pose proof (nearest_held _ _ _ Nx Hq) as Ex. split; [apply Nx|]. intros y' Hy'. rewrite Ex. now apply Nq.
  - apply Direct; [right; now split|]. right. exact Ef.
Qed.
Print Assumptions C28_planes.
Definition cube (d : dt) (n r c : nat) (f : nat -> Q) : ndarray :=
  mkNd d (mkArr [n; r; c] (fun idx => mkCell (Fin (f (lin [n; r; c] idx))) false)).
Definition block2 (s o : list pv) : multidict := [($"SCALING_FACTOR", PTuple s); ($"OFFSET", PTuple o)].
Example C28_planes_meets : exists r,
  scale_array (block2 [PFloat (1 # 2); PFloat (3 # 1)] [PInt 0; PFloat (-1 # 4)])
     (cube (DInt true 2) 2 1 2 (fun k => inject_Z (Z.of_nat k + 1))) false None = Ok r /\ dtype r = DF64 /\
  Forall2 (fun c q => match val c with Fin x => (x == q)%Q | _ => False end) (ravel (elems r)) [(1 # 2)%Q; 1%Q; (35 # 4)%Q; (47 # 4)%Q].
Proof. apply ok_with. vm_compute. split; [reflexivity|]. repeat constructor. Qed.
(** integer planes by integers *)
Theorem C28_planes_integers block a sg b s o n rows cols :
  well_typed a -> dtype a = DInt sg b -> shape (elems a) = [n; rows; cols] -> (1 < n)%nat ->
  says_planes block $"SCALING_FACTOR" (map SI s) -> says_planes block $"OFFSET" (map SI o) -> List.length s = n -> List.length o = n ->
  Forall (int_holds sg b) s -> Forall (int_holds sg b) o ->
  (forall i idx q c k, valid (shape (elems a)) (i :: idx) -> nth_error s i = Some c -> nth_error o i = Some k -> masked (at_ (elems a) (i :: idx)) = false ->
     val (at_ (elems a) (i :: idx)) = Fin q -> holds (dtype a) (q * inject_Z c + inject_Z k)) ->
  exists r, scale_array block a false None = Ok r /\ dtype r = dtype a /\
    scaled_by (fun idx x y => forall i c k, hd_error idx = Some i -> nth_error s i = Some c -> nth_error o i = Some k ->
                 exactly (inject_Z c) (inject_Z k) x y) a r.
Proof.
  intros W D Sh N Hs Ho Ls Lo Is Io Hr.
  destruct (copy_scale_planes_int a n rows cols s o sg b Sh W D Ls Lo N Is Io Hr) as (r & E & Dr & Sr).
  exists r. split; [|now split]. apply (says_planes_nonunit a (map SI o) (map SI s) block None a Hs Ho); [|exact E].
  now destruct (casting_to_float _ _ _).
Qed.
Print Assumptions C28_planes_integers.
Example C28_planes_integers_meets : exists r,
  scale_array (block2 [PInt 2; PInt 3] [PInt 0; PInt (-1)])
     (cube (DInt true 2) 2 1 2 (fun k => inject_Z (Z.of_nat k + 1))) false None = Ok r /\
  map val (ravel (elems r)) = map (fun z => Fin (inject_Z z)) [2; 4; 8; 11].
Proof. apply ok_with. vm_compute. reflexivity. Qed.

(** *** What the code does otherwise *)
(** integers that do not fit wrap around without a warning *)
Theorem C28_silent_wrap_refuted : exists r,
  scale_array [($"SCALING_FACTOR", PInt 200)] (vec (DInt true 2) [inject_Z 300]) false None = Ok r /\
  map val (ravel (elems r)) = [Fin (inject_Z (-5536))].
Proof. apply ok_with. vm_compute. reflexivity. Qed.
Print Assumptions C28_silent_wrap_refuted.
(** a factor that does not fit the array's type: the larger type is chosen for
    value * OFFSET + SCALING_FACTOR, and the result wraps *)
Theorem C28_refit_swapped_refuted : exists r,
  scale_array [($"SCALING_FACTOR", PInt 1000)] (vec (DInt true 1) [inject_Z 100]) false None = Ok r /\
  dtype r = DInt false 2 /\ map val (ravel (elems r)) = [Fin (inject_Z 34464)].
Proof. apply ok_with. vm_compute. split; reflexivity. Qed.
Print Assumptions C28_refit_swapped_refuted.
(** factors per plane without offsets per plane apply along the columns instead *)
Theorem C28_planes_without_offset_refuted : exists r,
  scale_array [($"SCALING_FACTOR", PTuple [PInt 10; PInt 100])]
     (cube (DInt true 2) 2 1 2 (fun k => inject_Z (Z.of_nat k + 1))) false None = Ok r /\
  map val (ravel (elems r)) = map (fun z => Fin (inject_Z z)) [10; 200; 30; 400].
Proof. apply ok_with. vm_compute. reflexivity. Qed.
Print Assumptions C28_planes_without_offset_refuted.
(** factors per row of a 2-D array add an axis *)
Theorem C28_rows_refuted : exists r,
  scale_array (block2 [PInt 10; PInt 100] [PInt 0; PInt 0])
     (mkNd (DInt true 2) (mkArr [2; 3]%nat (fun _ => mkCell (Fin 1) false))) false None = Ok r /\
  shape (elems r) = [2; 1; 3]%nat.
Proof. apply ok_with. vm_compute. reflexivity. Qed.
Print Assumptions C28_rows_refuted.

(** ** C29: scaling in place *)
(** integers that become floats are never scaled in place *)
Theorem C29_cast block a fd s o sg b : dtype a = DInt sg b ->
  says block $"SCALING_FACTOR" 1 s -> says block $"OFFSET" 0 o -> ~ (exists z w, s = SI z /\ o = SI w) ->
  scale_array block a true fd = scale_array block a false fd.
Proof.
  intros D Hs Ho NI. unfold scale_array. rewrite (says_factor _ _ _ _ Hs), (says_factor _ _ _ _ Ho). cbn [rbind].
  assert (C : casting_to_float a (FNum s) (FNum o) = true).
  { unfold casting_to_float. rewrite D. destruct s as [z|q]; [|reflexivity]. destruct o as [w|q]; [|reflexivity]. exfalso. apply NI. now exists z, w. }
  rewrite C. reflexivity.
Qed.
Print Assumptions C29_cast.
Example C29_cast_meets : says [($"OFFSET", PFloat (1 # 2))] $"SCALING_FACTOR" 1 (SI 1) /\
  says [($"OFFSET", PFloat (1 # 2))] $"OFFSET" 0 (SF (1 # 2)) /\ ~ (exists z w, SI 1 = SI z /\ SF (1 # 2) = SI w).
Proof. split; [now apply says_missing|]. split; [now apply says_float|]. intros (z & w & _ & [=]). Qed.
(** factors per plane: the same as a copy *)
Theorem C29_planes block a fd s o n rows cols : shape (elems a) = [n; rows; cols] -> (1 < n)%nat ->
  says_planes block $"SCALING_FACTOR" s -> says_planes block $"OFFSET" o -> List.length s = n -> List.length o = n ->
  scale_array block a true fd = scale_array block a false fd.
Proof.
  intros Sh N Hs Ho Ls Lo. unfold scale_array. rewrite (says_planes_factor _ _ _ _ Hs), (says_planes_factor _ _ _ _ Ho). cbn [rbind factor_is andb].
  destruct (casting_to_float a (FList s) (FList o)) eqn:C; [reflexivity|]. cbn [negb].
  assert (F : is_float (dtype a)) by (unfold casting_to_float in C; destruct (dtype a); [discriminate|exact I|exact I]).
  unfold overflow_wrap. assert (E : inplace_scale a (FList o) (FList s) = copy_scale a (FList o) (FList s)).
  { unfold inplace_scale, copy_scale, per_plane, first_len. rewrite Sh, Ls, Lo, Nat.eqb_refl.
    assert (N1 : (1 <? n)%nat = true) by now apply Nat.ltb_lt. rewrite N1. cbn [andb]. rewrite <- Sh. apply stacked_in_place with (rows := rows) (cols := cols); [assumption|assumption|lia]. }
  now rewrite E.
Qed.
Print Assumptions C29_planes.
Example C29_planes_meets : exists r,
  scale_array (block2 [PFloat (1 # 2); PFloat (3 # 1)] [PInt 0; PFloat (-1 # 4)])
     (cube DF32 2 1 2 (fun k => inject_Z (Z.of_nat k + 1))) true None = Ok r /\ dtype r = DF32 /\
  Forall2 (fun c q => match val c with Fin x => (x == q)%Q | _ => False end) (ravel (elems r)) [(1 # 2)%Q; 1%Q; (35 # 4)%Q; (47 # 4)%Q].
Proof. apply ok_with. vm_compute. split; [reflexivity|]. repeat constructor. Qed.
(** any two lists, on doubles: the same as a copy, unless it adds an axis *)
Theorem C29_lists block a fd s o : dtype a = DF64 -> shape (elems a) <> [] -> hd_error (shape (elems a)) <> Some (List.length s) ->
  says_planes block $"SCALING_FACTOR" s -> says_planes block $"OFFSET" o ->
  scale_array block a true fd = scale_array block a false fd.
Proof.
  intros D NE NL Hs Ho. unfold scale_array. rewrite (says_planes_factor _ _ _ _ Hs), (says_planes_factor _ _ _ _ Ho). cbn [rbind factor_is andb].
  assert (C : casting_to_float a (FList s) (FList o) = false) by (unfold casting_to_float; now rewrite D). rewrite C. cbn [negb].
  assert (E : inplace_scale a (FList o) (FList s) = copy_scale a (FList o) (FList s)).
  { unfold inplace_scale, copy_scale, per_plane, first_len. destruct (shape (elems a)) as [|n sh]; [easy|]. cbn [hd_error] in NL.
    assert (N1 : (n =? List.length s)%nat = false) by (apply Nat.eqb_neq; congruence). rewrite N1. cbn [andb].
    rewrite D. destruct (any_op OMul (FList s) a) as [m|] eqn:Em; cbn [rbind]; [|reflexivity].
    pose proof (any_op_list_dtype _ _ _ _ D Em) as Dm. assert (A : forall x, dtype x = DF64 -> as_dtype DF64 x = x).
    { intros x Dx. unfold as_dtype. now rewrite Dx. }
    rewrite (A _ Dm). destruct (any_op OAdd (FList o) m) as [r|] eqn:Er; cbn [rbind]; [|reflexivity].
    now rewrite (A _ (any_op_list_dtype _ _ _ _ Dm Er)). }
  unfold overflow_wrap. now rewrite E.
Qed.
Print Assumptions C29_lists.
Example C29_lists_meets : exists r,
  scale_array (block2 [PFloat (1 # 2); PInt 3] [PInt 0; PInt 1])
     (mkNd DF64 (mkArr [1; 2]%nat (fun _ => mkCell (Fin 2) false))) true None = Ok r /\
  Forall2 (fun c q => match val c with Fin x => (x == q)%Q | _ => False end) (ravel (elems r)) [1%Q; 7%Q].
Proof. apply ok_with. vm_compute. repeat constructor. Qed.
(** single numbers, though: any array that would keep its type raises TypeError *)
Theorem C29_number_factors_refuted block a fd s o :
  says block $"SCALING_FACTOR" 1 s -> says block $"OFFSET" 0 o -> ~ unscaled s o ->
  is_float (dtype a) \/ (exists z w, s = SI z /\ o = SI w) ->
  scale_array block a true fd = Err TypeError.
Proof.
  intros Hs Ho U K. unfold scale_array. rewrite (says_factor _ _ _ _ Hs), (says_factor _ _ _ _ Ho). cbn [rbind].
  assert (E : factor_is (FNum s) 1 && factor_is (FNum o) 0 = false) by (apply not_true_iff_false; rewrite unscaled_iff; exact U). rewrite E.
  assert (C : casting_to_float a (FNum s) (FNum o) = false).
  { unfold casting_to_float. destruct K as [F|(z & w & -> & ->)]; [destruct (dtype a); [easy|reflexivity|reflexivity]|now destruct (dtype a)]. }
  rewrite C. unfold overflow_wrap, inplace_scale. cbn [negb andb]. now destruct (first_len a).
Qed.
Print Assumptions C29_number_factors_refuted.
Example C29_number_factors_meets : says [($"SCALING_FACTOR", PFloat (1 # 2))] $"SCALING_FACTOR" 1 (SF (1 # 2)) /\
  says [($"SCALING_FACTOR", PFloat (1 # 2))] $"OFFSET" 0 (SI 0) /\ ~ unscaled (SF (1 # 2)) (SI 0) /\ is_float DF32.
Proof. split; [now apply says_float|]. split; [now apply says_missing|]. split; [intros [H _]; discriminate H|exact I]. Qed.

(** ** C30: the type chosen for scaled integers *)
(** every scaled element fits, and no type with fewer bytes would do *)
Theorem C30_fits a s o r sg b : fit_to_scale a (SI s) (SI o) = Ok r -> dtype a = DInt sg b -> well_typed a -> 0 <= s ->
  exists sg' b', dtype r = DInt sg' b' /\ numpy_int b' /\
    (forall idx q, valid (shape (elems a)) idx -> masked (at_ (elems a) idx) = false -> val (at_ (elems a) idx) = Fin q ->
       holds (DInt sg' b') (q * inject_Z s + inject_Z o)) /\
    (forall sg2 b2, numpy_int b2 ->
       (forall idx q, valid (shape (elems a)) idx -> masked (at_ (elems a) idx) = false -> val (at_ (elems a) idx) = Fin q ->
          holds (DInt sg2 b2) (q * inject_Z s + inject_Z o)) -> b' <= b2).
Proof.
  intros H D [P W] S. unfold fit_to_scale in H. rewrite D in H.
  destruct (fold_num qmin _) as [lo|] eqn:Elo; cbn [rbind] in H; [|discriminate].
  destruct (fold_num qmax _) as [hi|] eqn:Ehi; cbn [rbind] in H; [|discriminate].
  destruct (choose_type _ _ _ _ _) as [t|] eqn:Et; cbn [rbind] in H; [|discriminate]. injection H as <-. cbn [astype dtype].
  apply (fold_num_spec Qle) in Elo; [|apply Qle_refl|apply Qle_trans|apply qmin_spec].
  apply (fold_num_spec (fun x y => (y <= x)%Q)) in Ehi; [|apply Qle_refl|intros; now apply Qle_trans with y|apply qmax_spec].
  destruct Elo as [Ilo Flo], Ehi as [Ihi Fhi]. rewrite Forall_forall in Flo, Fhi.
  apply in_unmasked in Ilo, Ihi. destruct Ilo as (i1 & V1 & M1 & E1), Ihi as (i2 & V2 & M2 & E2).
  assert (Int : forall idx q, valid (shape (elems a)) idx -> val (at_ (elems a) idx) = Fin q -> exists z, (q == inject_Z z)%Q).
  { intros idx q V E. specialize (W idx V). rewrite E, D in W. destruct W as (z & Hz & _). now exists z. }
  destruct (Int _ _ V1 E1) as [zl Hl], (Int _ _ V2 E2) as [zh Hh]. rewrite (trunc_Z _ _ Hl), (trunc_Z _ _ Hh) in Et.
  assert (Rng : forall idx q z, valid (shape (elems a)) idx -> masked (at_ (elems a) idx) = false -> val (at_ (elems a) idx) = Fin q ->
            (q == inject_Z z)%Q -> zl <= z <= zh).
  { intros idx q z V M E Hz. assert (I : In (Fin q) (unmasked_values a)) by (apply in_unmasked; now exists idx).
    destruct (Flo _ I) as (q1 & [= <-] & L1). destruct (Fhi _ I) as (q2 & [= <-] & L2). rewrite Hl, Hz, <- Zle_Qle in L1. rewrite Hh, Hz, <- Zle_Qle in L2. lia. }
  assert (LH : zl <= zh) by (pose proof (Rng i1 lo zl V1 M1 E1 Hl); lia).
  destruct (choose_int zl zh s o t S LH Et) as (sg' & b' & -> & B' & Fit & Min).
  exists sg', b'. split; [reflexivity|]. split; [assumption|]. split.
  - intros idx q V M E. destruct (Int _ _ V E) as [z Hz]. exists (z * s + o). split; [rewrite Hz, inject_Z_plus, inject_Z_mult; reflexivity|].
    apply Fit. now apply (Rng idx q).
  - intros sg2 b2 B2 F2.
    assert (Get : forall idx q z, valid (shape (elems a)) idx -> masked (at_ (elems a) idx) = false -> val (at_ (elems a) idx) = Fin q -> (q == inject_Z z)%Q ->
       int_holds sg2 b2 (z * s + o)).
    { intros idx q z V M E Hz. destruct (F2 idx q V M E) as (w & Hw & Bw). assert (Ew : (z * s + o)%Z = w).
      { assert (inject_Z (z * s + o) == inject_Z w)%Q by (rewrite <- Hw, Hz, inject_Z_plus, inject_Z_mult; reflexivity). unfold Qeq in H. cbn in H. lia. }
      now rewrite Ew. }
    apply (Min sg2 b2 B2); [now apply (Get i1 lo)|now apply (Get i2 hi)].
Qed.
Print Assumptions C30_fits.
(** if some integer type would do, one is chosen; the elements keep their values
    wherever the new type has them *)
Theorem C30_chosen a s o sg b sg2 b2 : dtype a = DInt sg b -> well_typed a ->
  (exists idx, valid (shape (elems a)) idx /\ masked (at_ (elems a) idx) = false) -> numpy_int b2 ->
  (forall idx q, valid (shape (elems a)) idx -> masked (at_ (elems a) idx) = false -> val (at_ (elems a) idx) = Fin q ->
     holds (DInt sg2 b2) (q * inject_Z s + inject_Z o)) ->
  exists r, fit_to_scale a (SI s) (SI o) = Ok r /\ shape (elems r) = shape (elems a) /\
    forall idx q, valid (shape (elems a)) idx -> val (at_ (elems a) idx) = Fin q -> holds (dtype r) q ->
      exists q', at_ (elems r) idx = mkCell (Fin q') (masked (at_ (elems a) idx)) /\ (q' == q)%Q.
Proof.
  intros D [P W] (i0 & V0 & M0) B2 F2. unfold fit_to_scale. rewrite D.
  assert (Int : forall idx, valid (shape (elems a)) idx -> exists q z, val (at_ (elems a) idx) = Fin q /\ (q == inject_Z z)%Q).
  { intros idx V. specialize (W idx V). rewrite D in W. destruct (val _) as [q| |]; [|easy|easy]. destruct W as (z & Hz & _). now exists q, z. }
  assert (NE : unmasked_values a <> []).
  { intros E. assert (I : In (val (at_ (elems a) i0)) (unmasked_values a)) by (apply in_unmasked; now exists i0). now rewrite E in I. }
  assert (AF : Forall (fun n => exists q, n = Fin q) (unmasked_values a)).
  { apply Forall_forall. intros n I. apply in_unmasked in I. destruct I as (idx & V & _ & <-). destruct (Int idx V) as (q & z & E & _). now exists q. }
  destruct (fold_num_total qmin _ NE AF) as [lo Elo], (fold_num_total qmax _ NE AF) as [hi Ehi]. rewrite Elo, Ehi. cbn [rbind].
  apply (fold_num_spec Qle) in Elo; [|apply Qle_refl|apply Qle_trans|apply qmin_spec].
  apply (fold_num_spec (fun x y => (y <= x)%Q)) in Ehi; [|apply Qle_refl|intros; now apply Qle_trans with y|apply qmax_spec].
  destruct Elo as [Ilo _], Ehi as [Ihi _]. apply in_unmasked in Ilo, Ihi. destruct Ilo as (i1 & V1 & M1 & E1), Ihi as (i2 & V2 & M2 & E2).
  assert (Get : forall idx q, valid (shape (elems a)) idx -> masked (at_ (elems a) idx) = false -> val (at_ (elems a) idx) = Fin q ->
     int_holds sg2 b2 (trunc q * s + o)).
  { intros idx q V M E. destruct (Int idx V) as (q' & z & E' & Hz). replace q' with q in * by congruence. rewrite (trunc_Z _ _ Hz).
    destruct (F2 idx q V M E) as (w & Hw & Bw). assert (Ew : (z * s + o)%Z = w).
    { assert (inject_Z (z * s + o) == inject_Z w)%Q by (rewrite <- Hw, Hz, inject_Z_plus, inject_Z_mult; reflexivity). unfold Qeq in H. cbn in H. lia. }
    now rewrite Ew. }
  destruct (choose_int_total (trunc lo) (trunc hi) s o sg2 b2 B2 (Get i1 lo V1 M1 E1) (Get i2 hi V2 M2 E2)) as [t Et].
  rewrite Et. cbn [rbind]. eexists. split; [reflexivity|]. split; [reflexivity|]. intros idx q V E Hq. cbn [astype dtype elems at_] in *. rewrite E.
  unfold choose_type in Et. cbn [orb s_op is_integral negb scalar_q] in Et. destruct (find _ int_candidates) as [t'|] eqn:Ef; [|discriminate].
  assert (t' = t) by congruence. subst t'. apply find_some in Ef. destruct Ef as [It _].
  assert (Pt : exists s' b', t = DInt s' b' /\ numpy_int b').
  { unfold int_candidates in It. cbn in It. unfold numpy_int. repeat (destruct It as [<-|It]; [do 2 eexists; split; [reflexivity|lia]|]). easy. }
  destruct Pt as (s' & b' & -> & B'). destruct Hq as (z & Hz & Bz). cbn [cast]. eexists. split; [reflexivity|].
  assert (Fl : Qround.Qfloor q = z). { rewrite (Qround.Qfloor_comp _ _ Hz). apply Qround.Qfloor_Z. }
  rewrite Fl, (wrap_id _ _ _ B' Bz), Hz. reflexivity.
Qed.
Print Assumptions C30_chosen.
(** a factor with a fractional part: a floating-point type is chosen *)
Theorem C30_fractional a s o r : fit_to_scale a s o = Ok r -> (exists f, s = SF f) \/ (exists f, o = SF f) ->
  (forall z, ~ (round64 (scalar_q s + scalar_q o) == inject_Z z)%Q) -> is_float (dtype r).
Proof.
  intros H F N. assert (I : is_integral (s_op OAdd s o) = false).
  { apply not_true_iff_false. intros E. destruct F as [[f ->]|[f ->]]; [|destruct s]; cbn [s_op is_integral q_op scalar_q] in E; apply Qeq_bool_iff in E; symmetry in E; exact (N _ E). }
  assert (G : forall fl lo hi t, choose_type fl lo hi s o = Ok t -> is_float t).
  { intros fl lo hi t. unfold choose_type. rewrite I. cbn [negb]. rewrite orb_true_r. cbv zeta. destruct (find _ _) as [d|] eqn:E; [|discriminate]. intros [= <-].
    apply find_some in E. destruct E as [[<-|[<-|[]]] _]; exact Logic.I. }
  unfold fit_to_scale in H. destruct (dtype a); [| |discriminate];
    (destruct (fold_num qmin _) as [lo|]; cbn [rbind] in H; [|discriminate]; destruct (fold_num qmax _) as [hi|]; cbn [rbind] in H; [|discriminate];
     destruct (choose_type _ _ _ _ _) as [t|] eqn:Et; cbn [rbind] in H; [|discriminate]; injection H as <-; exact (G _ _ _ _ Et)).
Qed.
Print Assumptions C30_fractional.
Example C30_fractional_meets : exists r, fit_to_scale (vec (DInt true 1) [inject_Z (-3); inject_Z 100]) (SI 1000) (SF (1 # 2)) = Ok r /\ dtype r = DF32 /\
  (round64 (1000 + (1 # 2)) == 2001 # 2)%Q.
Proof. apply ok_with. split; vm_compute; reflexivity. Qed.
Example C30_meets : exists r, fit_to_scale (vec (DInt true 1) [inject_Z (-3); inject_Z 100]) (SI 1000) (SI 5) = Ok r /\
  dtype r = DInt true 4 /\ map val (ravel (elems r)) = [Fin (inject_Z (-3)); Fin (inject_Z 100)].
Proof. apply ok_with. vm_compute. split; reflexivity. Qed.
(** a negative factor exchanges the bounds: a type may be chosen that does not fit *)
Theorem C30_negative_scale_refuted : exists r, fit_to_scale (vec (DInt true 2) [inject_Z 0; inject_Z 10]) (SI (-1)) (SI 0) = Ok r /\
  dtype r = DInt false 1 /\ ~ holds (DInt false 1) (inject_Z 10 * inject_Z (-1) + inject_Z 0).
Proof.
  apply ok_with. split; [vm_compute; reflexivity|]. intros (z & E & L). unfold int_holds in L. unfold Qeq in E. cbn in E. lia.
Qed.
Print Assumptions C30_negative_scale_refuted.
(** doubles are refused, whatever the factors, although the documentation lists them *)
Theorem C30_double_refuted a s o : dtype a = DF64 -> fit_to_scale a s o = Err TypeError.
Proof. intros D. unfold fit_to_scale. now rewrite D. Qed.
Print Assumptions C30_double_refuted.

(** ** C27: special constants *)
(** what is masked: numbers equal to a constant and, if NaN is among the constants,
    everything that is not finite.  Nothing else changes. *)
Theorem C27_mask a cs : well_typed a ->
  (~ is_float (dtype a) /\ Forall (fun c => const_number c (fun k => exists z, k = SI z)) cs /\ ~ In CNan cs) \/
  (is_float (dtype a) /\ Forall (fun c => const_number c (fun k => double_exact (scalar_q k))) cs) ->
  let r := mask_specials a cs in
  dtype r = dtype a /\ shape (elems r) = shape (elems a) /\
  forall idx, valid (shape (elems a)) idx ->
    val (at_ (elems r) idx) = val (at_ (elems a) idx) /\
    (masked (at_ (elems r) idx) = true <->
     match val (at_ (elems a) idx) with
     | Fin x => exists k, In (CNum k) cs /\ (x == scalar_q k)%Q
     | _ => In CNan cs
     end).
Proof.
  intros [P W] H r. split; [reflexivity|]. split; [reflexivity|]. intros idx V. split; [reflexivity|].
  unfold r, mask_specials. cbn [elems at_ masked]. specialize (W idx V). destruct (val (at_ (elems a) idx)) as [x| |].
  - cbn [is_finite negb]. rewrite andb_false_r, orb_false_r. apply isin_iff. destruct H as [(NF & F & NN)|(Fl & F)]; [now left|right].
    split; [|assumption]. destruct (dtype a); [easy|now apply single_is_double|assumption].
  - cbn [isin is_finite negb orb]. rewrite andb_true_r. apply has_nan_iff.
  - cbn [isin is_finite negb orb]. rewrite andb_true_r. apply has_nan_iff.
Qed.
Print Assumptions C27_mask.
Example C27_mask_meets : map masked (ravel (elems (mask_specials
    (mkNd DF32 (mkArr [4%nat] (fun idx => mkCell (nth (hd O idx) [Fin (1 # 2); NaN; Inf true; Fin 3] NaN) false))) [CNum (SF (1 # 2)); CNan]))) = [true; true; true; false].
Proof. vm_compute. reflexivity. Qed.
(** which constants are found: those the label gives, those customary for the element
    type that occur in the array (these win), and INVALIDS if something is not finite *)
Theorem C27_found block a l : proper_type (dtype a) -> find_special_constants block a = Ok l -> forall name c,
  dict_get l name = Some c <->
  (exists q k, customary_found a name q /\ c = CNum k /\ (scalar_q k == q)%Q /\ k = implicit_scalar q) \/
  ((forall q, ~ customary_found a name q) /\
   ((~ is_uint8 (dtype a) /\ has_nonfinite a /\ name = $"INVALIDS" /\ c = CNan) \/
    (exists k, c = CNum k /\ label_constant block name k))).
Proof.
  intros P H name c. unfold find_special_constants in H. destruct (explicit_constants block) as [ex|] eqn:Ex; cbn [rbind] in H; [|discriminate].
  pose proof (explicit_spec _ _ Ex) as HE. pose proof (uint8_name _ P) as U8.
  destruct (str_eqb (dtype_name (dtype a)) $"uint8") eqn:E8.
  { injection H as <-. assert (U : is_uint8 (dtype a)) by now apply U8. rewrite HE. split.
    - intros K. right. split; [intros q [N _]; now apply N|]. now right.
    - intros [(q & k & [N _] & _)|[_ [(N & _)|K]]]; [now destruct N|now destruct N|exact K]. }
  assert (N8 : ~ is_uint8 (dtype a)) by (intros U; apply U8 in U; discriminate U).
  destruct (implicit_constants (dtype_name (dtype a))) as [im|] eqn:Ei; [|discriminate]. injection H as <-.
  set (base := if forallb is_finite (values a) then ex else dict_set ex $"INVALIDS" CNan).
  change (dict_get _ name) with (dict_get (fold_left (fun d kv => dict_set d (fst kv) (CNum (implicit_scalar (snd kv)))) (filter (fun kv => existsb (equals_in (dtype a) (implicit_scalar (snd kv))) (values a)) im) base) name). 
  assert (HB : dict_get base name = Some c <-> (has_nonfinite a /\ name = $"INVALIDS" /\ c = CNan) \/ (exists k, c = CNum k /\ label_constant block name k)).
  { unfold base. pose proof (nonfinite_iff a) as NF. destruct (forallb is_finite (values a)).
    - rewrite HE. split; [now right|]. intros [[N _]|K]; [apply NF in N; discriminate N|exact K].
    - assert (N : has_nonfinite a) by now apply NF. rewrite dict_get_set. destruct (str_eqb_spec $"INVALIDS" name) as [<-|Ne].
      + split; [intros [= <-]; left; now split|]. intros [(_ & _ & ->)|(k & _ & (I & _))]; [reflexivity|]. exfalso. revert I. clear.
        assert (str_in $"INVALIDS" PDS3_CONSTANT_NAMES = false) by (vm_compute; reflexivity). intros I. apply str_in_iff in I. congruence.
      + rewrite HE. split; [now right|]. intros [(_ & E & _)|K]; [now destruct Ne|exact K]. }
  destruct (table_facts _ _ P Ei) as [ND _].
  destruct (fold_sets (fun q => CNum (implicit_scalar q)) (fun kv => existsb (equals_in (dtype a) (implicit_scalar (snd kv))) (values a)) im base name ND) as [F1 F2].
  assert (CF : forall q, customary_found a name q <-> In (name, q) im /\ existsb (equals_in (dtype a) (implicit_scalar q)) (values a) = true).
  { intros q. unfold customary_found, customary. rewrite Ei. split.
    - intros (_ & (l & [= <-] & I) & Pr). split; [assumption|]. now apply (found_present a im name q P Ei I).
    - intros [I E]. split; [assumption|]. split; [now exists im|]. now apply (found_present a im name q P Ei I). }
  destruct (existsb (fun kv => str_eqb (fst kv) name && existsb (equals_in (dtype a) (implicit_scalar (snd kv))) (values a)) im) eqn:Dec.
  - apply existsb_exists in Dec. destruct Dec as ([n q] & I & E). apply andb_true_iff in E. destruct E as [En Ep]. apply str_eqb_eq in En. cbn [fst snd] in *. subst n.
    rewrite (F1 q I Ep). split.
    + intros [= <-]. left. exists q, (implicit_scalar q). split; [now apply CF|]. split; [reflexivity|]. split; [apply implicit_scalar_q|reflexivity].
    + intros [(q' & k & C & -> & _ & ->)|[N _]]; [|exfalso; apply (N q); now apply CF]. apply CF in C. destruct C as [I' Ep'].
      pose proof (F1 q' I' Ep') as G. rewrite (F1 q I Ep) in G. congruence.
  - assert (N : forall q, In (name, q) im -> existsb (equals_in (dtype a) (implicit_scalar q)) (values a) = false).
    { intros q I. apply not_true_iff_false. intros E. apply not_true_iff_false in Dec. apply Dec. apply existsb_exists. exists (name, q).
      split; [assumption|]. cbn [fst snd]. now rewrite str_eqb_refl, E. }
    rewrite (F2 N), HB. split.
    + intros K. right. split; [intros q C; apply CF in C; destruct C as [I E]; rewrite (N q I) in E; discriminate E|]. destruct K as [K|K]; [left; now split|now right].
    + intros [(q & k & C & _)|[_ [(_ & K)|K]]]; [|now left|now right]. apply CF in C. destruct C as [I E]. rewrite (N q I) in E. discriminate E.
Qed.
Print Assumptions C27_found.
Example C27_found_meets : exists l,
  find_special_constants [($"CORE_NULL", PTuple [PInt (-1)]); ($"MISSING_CONSTANT", PStr $"N/A")] (vec (DInt true 2) [inject_Z (-32768); inject_Z (-1); inject_Z 7]) = Ok l /\
  l = [($"CORE_NULL", CNum (SI (-1))); ($"N/A", CNum (SI (-32768)))].
Proof. apply ok_with. vm_compute. reflexivity. Qed.
(** the names of constants: the six PDS3 ones and the ISIS ones, which say NULL or
    SATURATION (or SAT), optionally of which part, in which direction and whose *)
Theorem C27_names : forall name, In name PDS3_CONSTANT_NAMES <->
  In name [$"INVALID_CONSTANT"; $"MISSING_CONSTANT"; $"INFINITY_CONSTANT"; $"NOT_APPLICABLE_CONSTANT"; $"NULL_CONSTANT"; $"UNKNOWN_CONSTANT"] \/
  exists part direction whose what, name = part ++ direction ++ whose ++ what /\
    (part = [] \/ part = $"CORE_" \/ part = $"BAND_SUFFIX_" \/ part = $"SAMPLE_SUFFIX_" \/ part = $"LINE_SUFFIX_") /\
    (direction = [] \/ direction = $"HIGH_" \/ direction = $"LOW_") /\
    (whose = [] \/ whose = $"INST_" \/ whose = $"REPR_") /\
    (what = $"NULL" \/ what = $"SATURATION" \/ what = $"SAT").
Proof.
  intros name. unfold PDS3_CONSTANT_NAMES, basic_constant_names, isis_constant_names. rewrite in_app_iff, or_comm. apply or_iff_compat_l. split.
  - intros H. apply in_flat_map in H. destruct H as (part & Hp & H). apply in_flat_map in H. destruct H as (dir & Hd & H).
    apply in_flat_map in H. destruct H as (who & Hw & H). apply in_map_iff in H. destruct H as (what & <- & Ht).
    exists part, dir, who, what. split; [reflexivity|]. cbn [In] in Hp, Hd, Hw, Ht. 
    repeat split; repeat match goal with H : _ \/ _ |- _ => destruct H as [<-|H] end; try contradiction; auto 8.
  - intros (part & dir & who & what & -> & Hp & Hd & Hw & Ht).
    apply in_flat_map. exists part. split; [cbn [In]; destruct Hp as [->|[->|[->|[->| ->]]]]; auto 8|].
    apply in_flat_map. exists dir. split; [cbn [In]; destruct Hd as [->|[->| ->]]; auto 8|].
    apply in_flat_map. exists who. split; [cbn [In]; destruct Hw as [->|[->| ->]]; auto 8|].
    apply in_map_iff. exists what. split; [reflexivity|]. cbn [In]; destruct Ht as [->|[->| ->]]; auto 8.
Qed.
Print Assumptions C27_names.
(** scaling by numbers keeps the mask *)
Theorem C27_mask_survives block a fd s o r : says block $"SCALING_FACTOR" 1 s -> says block $"OFFSET" 0 o ->
  scale_array block a false fd = Ok r ->
  shape (elems r) = shape (elems a) /\ forall idx, valid (shape (elems a)) idx -> masked (at_ (elems r) idx) = masked (at_ (elems a) idx).
Proof. exact (scale_array_mask block a fd s o r). Qed.
Print Assumptions C27_mask_survives.
(** the constants are found whenever each name of a constant that the label has is given
    a number, a list that begins with one, or N/A (there are no customary constants for
    64-bit unsigned integers) *)
Theorem C27_finds block a : proper_type (dtype a) -> dtype a <> DInt false 8 ->
  (forall name v, In name PDS3_CONSTANT_NAMES -> md_get block name = Some v -> v = PStr $"N/A" \/ exists k, label_constant block name k) ->
  exists l, find_special_constants block a = Ok l.
Proof.
  intros P N8 H. assert (exists ex, explicit_constants block = Ok ex) as [ex Ex].
  { apply rmap_total. intros name I. apply filter_In in I. destruct I as [I F]. destruct (md_get block name) as [v|] eqn:E; [|discriminate].
    destruct (H name v I E) as [->|(k & _ & w & Nw & Hw)]; [discriminate F|]. 
    assert (C : const_of w = Ok (CNum k)) by (destruct Nw; reflexivity).
    destruct Hw as [Hw|[vs Hw]]; rewrite E in Hw; injection Hw as ->.
    - destruct Nw; eexists; reflexivity.
    - cbn [rbind]. rewrite C. eexists; reflexivity. }
  unfold find_special_constants. rewrite Ex. cbn [rbind]. destruct (str_eqb _ $"uint8"); [eexists; reflexivity|].
  assert (exists im, implicit_constants (dtype_name (dtype a)) = Some im) as [im ->].
  { destruct (dtype a) as [sg b| |]; [|eexists; vm_compute; reflexivity|eexists; vm_compute; reflexivity].
    cbn in P. unfold numpy_int in P. destruct P as [->|[->|[->| ->]]]; destruct sg; try (eexists; vm_compute; reflexivity). now elim N8. }
  eexists; reflexivity.
Qed.
Print Assumptions C27_finds.
(** so, altogether: in a scaled integer array exactly the elements equal to a constant are
    masked; the constants are those known for the product, if there are any, whatever the
    label says, and otherwise those found *)
Theorem C27_scaled_integers special block a fd s o r sg b l : dtype a = DInt sg b -> well_typed a ->
  says block $"SCALING_FACTOR" 1 s -> says block $"OFFSET" 0 o ->
  (forall idx, valid (shape (elems a)) idx -> masked (at_ (elems a) idx) = false) ->
  (special = [] /\ find_special_constants block a = Ok l) \/ (special <> [] /\ l = special) -> Forall (fun kc => exists z, snd kc = CNum (SI z)) l ->
  get_scaled special block a false fd = Ok r ->
  shape (elems r) = shape (elems a) /\
  forall idx q, valid (shape (elems a)) idx -> val (at_ (elems a) idx) = Fin q ->
    (masked (at_ (elems r) idx) = true <-> exists name k, In (name, CNum k) l /\ (q == scalar_q k)%Q).
Proof.
  intros D W Hs Ho M0 Hl' Il H.
  assert (Hl : match special with [] => find_special_constants block a | _ => Ok special end = Ok l).
  { destruct Hl' as [[-> E]|[N ->]]; [exact E|]. destruct special; [now elim N|reflexivity]. }
  clear Hl'. unfold get_scaled in H. rewrite Hl in H. cbn [rbind] in H.
  destruct l as [|kc l'].
  - destruct (scale_array_mask block a fd s o r Hs Ho H) as [Sh Mk]. split; [assumption|]. intros idx q V E. rewrite (Mk idx V), (M0 idx V).
    split; [discriminate|]. intros (n & k & [] & _).
  - set (l := kc :: l') in *. set (m := mask_specials a (map snd l)) in *. destruct (scale_array_mask block m fd s o r Hs Ho H) as [Sh Mk].
    split; [exact Sh|]. intros idx q V E. rewrite (Mk idx V).
    destruct (C27_mask a (map snd l) W) as (_ & _ & HM).
    { left. rewrite D. split; [easy|]. rewrite Forall_forall in Il. split.
      - apply Forall_forall. intros c I. apply in_map_iff in I. destruct I as (x & <- & I). destruct (Il x I) as [z ->]. now exists z.
      - intros I. apply in_map_iff in I. destruct I as (x & Ex & I). destruct (Il x I) as [z Ez]. congruence. }
    destruct (HM idx V) as [_ HM']. fold m in HM'. rewrite HM', E. split.
    + intros (k & I & Eq). apply in_map_iff in I. destruct I as ([n c] & Ec & I). cbn [snd] in Ec. subst c. now exists n, k.
    + intros (n & k & I & Eq). exists k. split; [|assumption]. now apply (in_map snd) in I.
Qed.
Print Assumptions C27_scaled_integers.
Example C27_scaled_integers_meets : exists r,
  get_scaled [] [($"CORE_NULL", PInt (-1)); ($"SCALING_FACTOR", PInt 2)] (vec (DInt true 2) [inject_Z (-32768); inject_Z (-1); inject_Z 7]) false None = Ok r /\
  map (fun c => (val c, masked c)) (ravel (elems r)) =
    [(Fin (inject_Z (-32768)), true); (Fin (inject_Z (-1)), true); (Fin (inject_Z 14), false)].
Proof. apply ok_with. vm_compute. reflexivity. Qed.
Example C27_known_meets : exists r,
  get_scaled [($"NULL", CNum (SI 7))] [($"CORE_NULL", PInt (-1)); ($"SCALING_FACTOR", PInt 2)] (vec (DInt true 2) [inject_Z (-32768); inject_Z (-1); inject_Z 7]) false None = Ok r /\
  map masked (ravel (elems r)) = [false; false; true].
Proof. apply ok_with. vm_compute. reflexivity. Qed.

(** *** What the code does otherwise *)
(** a customary constant of single-precision arrays that is found but not masked: it
    is looked for in single precision and masked in double *)
Theorem C27_single_precision_refuted : let x := round32 (inject_Z (-100000000000000000000000000000000)) in exists l,
  find_special_constants [] (vec DF32 [x]) = Ok l /\ map fst l = [$"N/A"] /\
  map masked (ravel (elems (mask_specials (vec DF32 [x]) (map snd l)))) = [false].
Proof. cbv zeta. apply ok_with. vm_compute. split; reflexivity. Qed.
Print Assumptions C27_single_precision_refuted.
(** the label's NULL is forgotten if the customary one occurs too *)
Theorem C27_null_overridden_refuted : exists l,
  find_special_constants [($"NULL", PInt 99)] (vec (DInt false 2) [inject_Z 99; inject_Z 0]) = Ok l /\ l = [($"NULL", CNum (SI 0))] /\
  map masked (ravel (elems (mask_specials (vec (DInt false 2) [inject_Z 99; inject_Z 0]) (map snd l)))) = [false; true].
Proof. apply ok_with. vm_compute. split; reflexivity. Qed.
Print Assumptions C27_null_overridden_refuted.
(** 64-bit unsigned arrays have no entry among the customary constants *)
Theorem C27_uint64_refuted block a l : dtype a = DInt false 8 -> find_special_constants block a <> Ok l.
Proof.
  intros D. unfold find_special_constants. destruct (explicit_constants block); cbn [rbind]; [|discriminate]. rewrite D. vm_compute. discriminate.
Qed.
Print Assumptions C27_uint64_refuted.
