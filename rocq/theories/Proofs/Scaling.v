(** Proofs about scaling. *)
From Coq Require Import QArith Qabs Qround Lqa Lia.
From Verif.Base Require Import Py PyFacts Val Numpy Float.
From Verif.Model Require Import Types Scaling.
From Verif.Spec Require Import Scaling.
Open Scope Z_scope.

(** ** Traversals *)
Lemma rmap_spec {A B} (f : A -> res B) l r : rmap f l = Ok r <-> Forall2 (fun a b => f a = Ok b) l r.
Proof.
  revert r. induction l as [|a l IH]; intros r; cbn [rmap].
  - split; [intros [= <-]; constructor|]. intros H. inversion H. reflexivity.
  - destruct (f a) as [b|e] eqn:E; cbn [rbind].
    + destruct (rmap f l) as [bs|e] eqn:E'; cbn [rbind].
      * split; [intros [= <-]; constructor; [assumption|now apply IH]|].
        intros H. inversion H as [|? ? ? ? E1 F1]; subst. apply IH in F1. congruence.
      * split; [discriminate|]. intros H. inversion H as [|? ? ? ? E1 F1]; subst. apply IH in F1. congruence.
    + split; [discriminate|]. intros H. inversion H. congruence.
Qed.
Lemma rmap_total {A B} (f : A -> res B) l : (forall a, In a l -> exists b, f a = Ok b) -> exists r, rmap f l = Ok r.
Proof.
  induction l as [|a l IH]; intros H; [now exists []|].
  destruct (H a (or_introl eq_refl)) as [b E]. destruct IH as [r R]; [intros; apply H; now right|].
  exists (b :: r). cbn [rmap]. now rewrite E, R.
Qed.
Lemma F2_nth {A B} (R : A -> B -> Prop) l l' : Forall2 R l l' -> List.length l = List.length l' /\
  forall i a, nth_error l i = Some a -> exists b, nth_error l' i = Some b /\ R a b.
Proof.
  induction 1 as [|a b l l' H F IH]; [split; [reflexivity|intros [] ? [=]]|]. destruct IH as [L N].
  split; [cbn; congruence|]. intros [|i] x E; [injection E as <-; now exists b|now apply N].
Qed.
Section Traverse.
  Context {A : Type} (f : list nat -> A -> res A) (a : arr A).
  Lemma traverse_inv b : traverse f a = Ok b -> shape b = shape a /\
    forall idx, valid (shape a) idx -> f idx (at_ a idx) = Ok (at_ b idx).
  Proof.
    unfold traverse. destruct (rmap _ _) as [l|e] eqn:E; cbn [rbind]; [|discriminate]. intros [= <-]. cbn [shape at_].
    split; [reflexivity|]. intros idx V. apply rmap_spec, F2_nth in E. destruct E as [L N].
    pose proof (lin_lt _ _ V) as Hl.
    assert (Hn : nth_error (seq 0 (size a)) (lin (shape a) idx) = Some (lin (shape a) idx)).
    { rewrite (nth_error_nth' _ O) by (now rewrite seq_length). rewrite seq_nth by assumption. reflexivity. }
    destruct (N _ _ Hn) as (y & Ey & Fy). rewrite unlin_lin in Fy by assumption. rewrite Fy. f_equal.
    symmetry. apply nth_error_nth with (1 := Ey).
  Qed.
  Lemma traverse_total : (forall idx, valid (shape a) idx -> exists y, f idx (at_ a idx) = Ok y) -> exists b, traverse f a = Ok b.
  Proof.
    intros H. unfold traverse.
    destruct (rmap_total (fun k => f (unlin (shape a) k) (at_ a (unlin (shape a) k))) (seq 0 (size a))) as [l E].
    - intros k I. apply H, unlin_valid. apply in_seq in I. unfold size in I. lia.
    - rewrite E. cbn [rbind]. eexists. reflexivity.
  Qed.
End Traverse.

(** ** Rounding and the numbers of a type *)
Lemma round_to_grid d q : is_float d -> holds d q -> (round_to d q == q)%Q.
Proof. destruct d; intros F H; [destruct F|apply round_ne_exact, H|apply round_ne_exact, H]. Qed.
Lemma nearest_round d q : is_float d -> (Qabs (round_to d q) <= fmax d)%Q -> nearest d q (round_to d q).
Proof.
  intros F B. destruct d as [| |]; [easy| |].
  - split; [split; [apply round_ne_on_grid; lia|exact B]|]. intros y [G _]. apply round_ne_nearest; [lia|assumption].
  - split; [split; [apply round_ne_on_grid; lia|exact B]|]. intros y [G _]. apply round_ne_nearest; [lia|assumption].
Qed.
Lemma nearest_held d q r : nearest d q r -> holds d q -> (r == q)%Q.
Proof.
  intros [_ N] H. specialize (N q H). setoid_replace (q - q)%Q with 0%Q in N by ring. change (Qabs 0) with 0%Q in N.
  apply Qabs_Qle_condition in N. lra.
Qed.
Lemma nearest_eq d q q' r : (q == q')%Q -> nearest d q r -> nearest d q' r.
Proof. intros E [H N]. split; [assumption|]. intros y Hy. specialize (N y Hy). now rewrite E in N. Qed.
Global Instance round_to_proper d : Proper (Qeq ==> Qeq) (round_to d).
Proof. destruct d; apply round_ne_proper. Qed.
Lemma on_grid_0 p e : 0 <= p -> on_grid p e 0.
Proof. exists 0, e. split; [ring|]. split; [apply Z.pow_pos_nonneg; lia|lia]. Qed.
(** rounding does not cross a power of two *)
Lemma round_ne_bound p e q k : 1 < p -> e <= k -> (Qabs q <= two_to k)%Q -> (Qabs (round_ne p e q) <= two_to k)%Q.
Proof.
  intros P K B.
  assert (G : forall z, Z.abs z <= 1 -> on_grid p e (inject_Z z * two_to k)).
  { intros z Hz. exists z, k. split; [reflexivity|]. split; [|assumption].
    assert (2 < 2 ^ p) by (apply (Z.pow_lt_mono_r 2 1); lia). lia. }
  pose proof (round_ne_nearest p e q _ ltac:(lia) (G 1 ltac:(lia))) as N1.
  pose proof (round_ne_nearest p e q _ ltac:(lia) (G (-1) ltac:(lia))) as N2.
  change (inject_Z 1) with 1%Q in N1. change (inject_Z (-1)) with (-1)%Q in N2.
  set (r := round_ne p e q) in *. pose proof (two_to_pos k) as T. set (t := two_to k) in *.
  apply Qabs_Qle_condition in B. apply Qabs_Qle_condition.
  rewrite (Qabs_pos (1 * t - q)) in N1 by lra. rewrite (Qabs_neg (-1 * t - q)) in N2 by lra.
  apply Qabs_Qle_condition in N1, N2. lra.
Qed.
Lemma round_to_bound d q k : is_float d -> 0 <= k -> (Qabs q <= two_to k)%Q -> (Qabs (round_to d q) <= two_to k)%Q.
Proof. destruct d; intros F K B; [easy| |]; apply round_ne_bound; (lia || assumption). Qed.
Lemma round_to_double d q : is_float d -> (Qabs (round_to d q) <= 2 * Qabs q)%Q.
Proof.
  intros F. assert (N : (Qabs (round_to d q - q) <= Qabs (0 - q))%Q).
  { destruct d; [easy| |]; apply round_ne_nearest; (lia || (apply on_grid_0; lia)). }
  setoid_replace (0 - q)%Q with (- q)%Q in N by ring. rewrite Qabs_opp in N.
  pose proof (Qabs_triangle (round_to d q - q) q) as T. setoid_replace (round_to d q - q + q)%Q with (round_to d q) in T by ring. lra.
Qed.
Definition top (d : dt) : Z := match d with DF32 => 127 | _ => 1023 end.
Lemma fmax_top d : (two_to (top d) <= fmax d)%Q.
Proof. destruct d; vm_compute; discriminate. Qed.
Definition mid (d : dt) : Z := match d with DF32 => 124 | _ => 1000 end.
Lemma moderate_mid d q : moderate d q -> (Qabs q <= two_to (mid d))%Q.
Proof. unfold moderate, mid. intros H. destruct d; rewrite two_to_Z by lia; exact H. Qed.
Lemma to_float_ok d q : is_float d -> (Qabs q <= two_to (top d))%Q -> to_float d q = Ok (Fin (round_to d q)) /\ nearest d q (round_to d q).
Proof.
  intros F B. assert (K : 0 <= top d) by (destruct d; cbn; lia).
  assert (M : (Qabs (round_to d q) <= fmax d)%Q).
  { eapply Qle_trans; [apply (round_to_bound d q (top d)); assumption|apply fmax_top]. }
  unfold to_float. pose proof M as M'. apply Qle_bool_iff in M'. rewrite M'. split; [reflexivity|]. now apply nearest_round.
Qed.
Lemma to_float_inv d q n : is_float d -> to_float d q = Ok n -> exists r, n = Fin r /\ nearest d q r.
Proof.
  intros F. unfold to_float. destruct (Qle_bool _ _) eqn:E; [|discriminate]. intros [= <-].
  eexists. split; [reflexivity|]. apply nearest_round; [assumption|]. now apply Qle_bool_iff.
Qed.

(** ** Wrapping *)
Lemma in_range_holds s b z : numpy_int b -> in_range s b z = true <-> int_holds s b z.
Proof.
  intros B. unfold in_range, int_holds, imin, imax. rewrite andb_true_iff, !Z.leb_le. destruct s; lia.
Qed.
Lemma wrap_id s b z : numpy_int b -> int_holds s b z -> wrap s b z = z.
Proof.
  intros B H. unfold wrap. rewrite Z.mod_small; [lia|]. unfold int_holds, imin in *.
  assert (2 ^ (8 * b) = 2 ^ (8 * b - 1) * 2).
  { replace (8 * b) with ((8 * b - 1) + 1) at 1 by lia. rewrite Z.pow_add_r; [reflexivity| |lia].
    destruct B as [->|[->|[->| ->]]]; lia. }
  destruct s; lia.
Qed.
Lemma wrap_plus s b x y : wrap s b (wrap s b x + y) = wrap s b (x + y).
Proof.
  unfold wrap. set (m := imin s b). f_equal. replace ((x - m) mod 2 ^ (8 * b) + m + y - m) with ((x - m) mod 2 ^ (8 * b) + y) by lia.
  rewrite Zplus_mod_idemp_l. f_equal. lia.
Qed.
Lemma int_of_Z q z : (q == inject_Z z)%Q -> int_of q = z.
Proof.
  intros E. unfold int_of. rewrite (Qred_complete _ _ E).
  assert (R : Qred (inject_Z z) = inject_Z z).
  { unfold inject_Z, Qred. pose proof (Z.ggcd_gcd z 1) as G. pose proof (Z.ggcd_correct_divisors z 1) as D.
    destruct (Z.ggcd z 1) as [g [aa bb]]. cbn [fst] in G. rewrite Z.gcd_1_r in G. subst g. destruct D as [D1 D2].
    cbn [snd]. replace aa with z by lia. replace bb with 1 by lia. reflexivity. }
  now rewrite R.
Qed.

(** ** One operation on an array *)
Lemma array_op_inv o c a r : array_op o c a = Ok r ->
  dtype r = promote (dtype a) c /\ shape (elems r) = shape (elems a) /\
  forall idx, valid (shape (elems a)) idx -> cell_op o (dtype a) c (at_ (elems a) idx) = Ok (at_ (elems r) idx).
Proof.
  unfold array_op. intros H.
  destruct (match dtype a, c with DInt s b, SI z => if in_range s b z then Ok tt else Err OverflowError | _, _ => Ok tt end);
    cbn [rbind] in H; [|discriminate].
  destruct (traverse _ _) as [e|] eqn:E; cbn [rbind] in H; [|discriminate]. injection H as <-. cbn [dtype elems].
  destruct (traverse_inv _ _ _ E) as [S V]. now split; [|split].
Qed.
Lemma array_op_total o c a : (forall s b z, dtype a = DInt s b -> c = SI z -> in_range s b z = true) ->
  (forall idx, valid (shape (elems a)) idx -> exists y, cell_op o (dtype a) c (at_ (elems a) idx) = Ok y) ->
  exists r, array_op o c a = Ok r.
Proof.
  intros G V. unfold array_op.
  destruct (traverse_total (fun _ => cell_op o (dtype a) c) (elems a) V) as [e E]. rewrite E.
  destruct (dtype a) as [s b| |] eqn:D; destruct c as [z|q]; cbn [rbind]; try (eexists; reflexivity).
  rewrite (G s b z eq_refl eq_refl). cbn [rbind]. eexists. reflexivity.
Qed.
(** integer arrays and integer factors *)
Lemma mul_add_int a sg b s o : dtype a = DInt sg b -> well_typed a -> int_holds sg b s -> int_holds sg b o ->
  exists r, mul_add a (SI s) (SI o) = Ok r /\ dtype r = DInt sg b /\ shape (elems r) = shape (elems a) /\
    forall idx, valid (shape (elems a)) idx ->
      let x := at_ (elems a) idx in let y := at_ (elems r) idx in
      if masked x then y = x
      else exists z, val x = Fin z /\ y = mkCell (Fin (inject_Z (wrap sg b (int_of z * s + o)))) false.
Proof.
  intros D [PT W] Hs Ho. rewrite D in PT. cbn in PT.
  assert (W1 : forall idx, valid (shape (elems a)) idx -> exists z, val (at_ (elems a) idx) = Fin z).
  { intros idx V. specialize (W idx V). rewrite D in W. destruct (val _); [eexists; reflexivity| |]; easy. }
  destruct (array_op_total OMul (SI s) a) as [m Em].
  { rewrite D. intros ? ? ? [= <- <-] [= <-]. now apply in_range_holds. }
  { intros idx V. destruct (W1 idx V) as [z Ez]. rewrite D. unfold cell_op. destruct (masked _); [eexists; reflexivity|].
    rewrite Ez. cbn. eexists. reflexivity. }
  destruct (array_op_inv _ _ _ _ Em) as (Dm & Sm & Vm). rewrite D in Dm, Vm. cbn [promote] in Dm.
  assert (V2 : forall idx, valid (shape (elems a)) idx ->
     let x := at_ (elems a) idx in let y := at_ (elems m) idx in
     if masked x then y = x else exists z, val x = Fin z /\ y = mkCell (Fin (inject_Z (wrap sg b (int_of z * s)))) false).
  { intros idx V. specialize (Vm idx V). destruct (W1 idx V) as [z Ez]. cbv zeta. unfold cell_op in Vm.
    destruct (masked _); [congruence|]. rewrite Ez in Vm. cbn [elem_op rbind] in Vm. exists z. split; [assumption|congruence]. }
  destruct (array_op_total OAdd (SI o) m) as [r Er].
  { rewrite Dm. intros ? ? ? [= <- <-] [= <-]. now apply in_range_holds. }
  { rewrite Sm. intros idx V. specialize (V2 idx V). cbv zeta in V2. rewrite Dm. unfold cell_op.
    destruct (masked (at_ (elems a) idx)) eqn:M.
    - rewrite V2, M. eexists. reflexivity.
    - destruct V2 as (z & _ & ->). cbn. eexists. reflexivity. }
  destruct (array_op_inv _ _ _ _ Er) as (Dr & Sr & Vr). rewrite Dm in Dr, Vr. cbn [promote] in Dr.
  exists r. unfold mul_add. rewrite Em. cbn [rbind]. split; [assumption|]. split; [assumption|]. split; [congruence|].
  intros idx V. specialize (V2 idx V). rewrite Sm in Vr. specialize (Vr idx V). cbv zeta in *.
  destruct (masked (at_ (elems a) idx)) eqn:M.
  - rewrite V2 in Vr. unfold cell_op in Vr. rewrite M in Vr. congruence.
  - destruct V2 as (z & Ez & V2). exists z. split; [assumption|]. rewrite V2 in Vr. unfold cell_op in Vr. cbn [masked val elem_op rbind] in Vr.
    rewrite (int_of_Z _ _ (Qeq_refl _)), wrap_plus in Vr. congruence.
Qed.

(** ** Floating-point arithmetic *)
Lemma int_holds_bound s b z : numpy_int b -> int_holds s b z -> Z.abs z <= 2 ^ 64.
Proof.
  intros B H. unfold int_holds in H.
  assert (2 ^ (8 * b) <= 2 ^ 64) by (apply Z.pow_le_mono_r; [lia|]; destruct B as [->|[->|[->| ->]]]; lia).
  assert (2 ^ (8 * b - 1) <= 2 ^ 64) by (apply Z.pow_le_mono_r; [lia|]; destruct B as [->|[->|[->| ->]]]; lia).
  destruct s; lia.
Qed.
Lemma nearest_elem d D q : proper_type d -> is_float D -> holds d q -> (is_float d -> D = d) -> nearest D q (round_to D q).
Proof.
  intros P F H E. destruct d as [s b| |].
  - destruct H as (z & Hz & B). apply nearest_round; [assumption|].
    assert (M : (Qabs q <= two_to 64)%Q).
    { rewrite Hz, two_to_Z by lia. change (Qabs (inject_Z z)) with (inject_Z (Z.abs z)). rewrite <- Zle_Qle. apply (int_holds_bound s b); [exact P|exact B]. }
    eapply Qle_trans; [apply (round_to_bound D q 64); [assumption|lia|assumption]|].
    eapply Qle_trans; [|apply fmax_top]. apply two_to_le. destruct D; cbn; lia.
  - rewrite (E I) in *. apply nearest_round; [assumption|]. rewrite round_to_grid by assumption. apply H.
  - rewrite (E I) in *. apply nearest_round; [assumption|]. rewrite round_to_grid by assumption. apply H.
Qed.
Lemma moderate_top d q : moderate d q -> (Qabs q <= two_to (top d))%Q.
Proof. intros H. eapply Qle_trans; [exact (moderate_mid d q H)|]. apply two_to_le. destruct d; cbn; lia. Qed.
Lemma elem_op_float o d c x : is_float (promote d c) ->
  elem_op o d c x =
    let d' := promote d c in
    do c' <- to_float d' (scalar_q c);
    match c', x with
    | Fin cq, Fin q => to_float d' (q_op o (round_to d' q) cq)
    | Fin cq, Inf n =>
        Ok (match o with
            | OAdd => Inf n
            | OMul => match q_sign cq with Z0 => NaN | Zpos _ => Inf n | Zneg _ => Inf (negb n) end
            end)
    | _, _ => Ok NaN
    end.
Proof. destruct d as [s b| |]; [destruct c; [easy|reflexivity]|reflexivity|reflexivity]. Qed.
Lemma q_sign_spec q : match q_sign q with Z0 => (q == 0)%Q | Zpos _ => (0 < q)%Q | Zneg _ => (q < 0)%Q end.
Proof. destruct q as [[|n|n] d]; unfold q_sign; cbn; reflexivity. Qed.

(** the value of one element *)
Lemma float_steps d D s o x : D = promote d s -> is_float D -> proper_type d -> moderate D (scalar_q s) -> moderate D (scalar_q o) ->
  match x with Fin q => holds d q /\ moderate D (q * scalar_q s) | _ => True end ->
  exists m r, elem_op OMul d s x = Ok m /\ elem_op OAdd D o m = Ok r /\ float_scaled D (scalar_q s) (scalar_q o) x r.
Proof.
  intros ED F P Ms Mo Hx.
  assert (PD : promote D o = D) by (destruct D; [easy|reflexivity|reflexivity]).
  rewrite elem_op_float by (now rewrite <- ED). cbv zeta. rewrite <- ED.
  destruct (to_float_ok D (scalar_q s) F (moderate_top _ _ Ms)) as [Es Ns]. rewrite Es. cbn [rbind].
  destruct (to_float_ok D (scalar_q o) F (moderate_top _ _ Mo)) as [Eo No].
  set (s' := round_to D (scalar_q s)) in *. set (o' := round_to D (scalar_q o)) in *.
  destruct x as [q| |n].
  - destruct Hx as [Hq Mq]. set (x' := round_to D q) in *.
    assert (Nx : nearest D q x').
    { apply (nearest_elem d); [assumption..|]. intros Fd. rewrite ED. destruct d; [easy|reflexivity|reflexivity]. }
    assert (K : 0 <= mid D /\ mid D + 3 <= top D) by (destruct D; cbn; lia).
    assert (B1 : (Qabs (x' * s') <= two_to (mid D + 2))%Q).
    { rewrite Qabs_Qmult. pose proof (round_to_double D q F) as X. pose proof (round_to_double D (scalar_q s) F) as S.
      fold x' in X. fold s' in S. apply moderate_mid in Mq. rewrite Qabs_Qmult in Mq.
      rewrite two_to_add. change (two_to 2) with 4%Q. pose proof (Qabs_nonneg x'). pose proof (Qabs_nonneg s').
      pose proof (Qabs_nonneg q). pose proof (Qabs_nonneg (scalar_q s)).
      apply Qle_trans with ((2 * Qabs q) * (2 * Qabs (scalar_q s)))%Q; [|lra].
      apply Qle_trans with ((2 * Qabs q) * Qabs s')%Q.
      - apply Qmult_le_compat_r; assumption.
      - rewrite (Qmult_comm (2 * Qabs q) (Qabs s')), (Qmult_comm (2 * Qabs q) (2 * Qabs (scalar_q s))). apply Qmult_le_compat_r; [assumption|lra]. }
    destruct (to_float_ok D (x' * s') F) as [Em Nm].
    { eapply Qle_trans; [exact B1|]. apply two_to_le. lia. }
    cbn [q_op]. rewrite Em. eexists _, _. split; [reflexivity|].
    set (m := round_to D (x' * s')) in *.
    assert (Bm : (Qabs m <= two_to (mid D + 2))%Q) by (apply round_to_bound; [assumption|lia|assumption]).
    assert (Bo : (Qabs o' <= two_to (mid D))%Q) by (apply round_to_bound; [assumption|lia|now apply moderate_mid]).
    rewrite elem_op_float by (now rewrite PD). cbv zeta. rewrite PD, Eo. cbn [rbind q_op].
    assert (Gm : (round_to D m == m)%Q) by (apply round_to_grid; [assumption|apply Nm]).
    assert (B2 : (Qabs (round_to D m + o') <= two_to (top D))%Q).
    { rewrite Gm. eapply Qle_trans; [apply Qabs_triangle|]. apply Qle_trans with (two_to (mid D + 3)); [|apply two_to_le; lia].
      rewrite two_to_add in Bm. rewrite two_to_add. change (two_to 2) with 4%Q in Bm. change (two_to 3) with 8%Q.
      pose proof (two_to_pos (mid D)). lra. }
    destruct (to_float_ok D (round_to D m + o') F B2) as [Er Nr]. rewrite Er. split; [reflexivity|].
    exists x', s', o', m, (round_to D (round_to D m + o')). split; [reflexivity|]. split; [assumption|]. split; [assumption|].
    split; [assumption|]. split; [assumption|]. revert Nr. apply nearest_eq. now rewrite Gm.
  - eexists NaN, NaN. split; [reflexivity|]. rewrite elem_op_float by (now rewrite PD). cbv zeta. rewrite PD, Eo. split; reflexivity.
  - pose proof (q_sign_spec s') as Sg.
    destruct (q_sign s'); (eexists _, _; split; [reflexivity|]; rewrite elem_op_float by (now rewrite PD); cbv zeta; rewrite PD, Eo;
      split; [reflexivity|]; exists s'; split; [assumption|]; repeat split; intros C; try reflexivity; exfalso; lra).
Qed.
Lemma mul_add_float a s o D : D = promote (dtype a) s -> is_float D -> well_typed a ->
  moderate D (scalar_q s) -> moderate D (scalar_q o) ->
  (forall idx q, valid (shape (elems a)) idx -> masked (at_ (elems a) idx) = false -> val (at_ (elems a) idx) = Fin q ->
     moderate D (q * scalar_q s)) ->
  exists r, mul_add a s o = Ok r /\ dtype r = D /\ scaled_by (fun _ => float_scaled D (scalar_q s) (scalar_q o)) a r.
Proof.
  intros ED F [P W] Ms Mo Mx.
  assert (PD : promote D o = D) by (destruct D; [easy|reflexivity|reflexivity]).
  assert (St : forall idx, valid (shape (elems a)) idx -> let x := at_ (elems a) idx in
     if masked x then True else exists m r, elem_op OMul (dtype a) s (val x) = Ok m /\ elem_op OAdd D o m = Ok r /\
       float_scaled D (scalar_q s) (scalar_q o) (val x) r).
  { intros idx V x. destruct (masked x) eqn:M; [exact I|]. apply float_steps; try assumption.
    specialize (W idx V). fold x in W. destruct (val x) as [q| |] eqn:E; try exact I. split; [assumption|]. now apply (Mx idx). }
  destruct (array_op_total OMul s a) as [m Em].
  { intros sg b z Ed ->. rewrite Ed in ED. cbn in ED. subst D. easy. }
  { intros idx V. specialize (St idx V). cbv zeta in St. unfold cell_op. destruct (masked _); [eexists; reflexivity|].
    destruct St as (v & _ & -> & _). eexists. reflexivity. }
  destruct (array_op_inv _ _ _ _ Em) as (Dm & Sm & Vm). rewrite <- ED in Dm.
  destruct (array_op_total OAdd o m) as [r Er].
  { intros sg b z Ed. rewrite Dm in Ed. subst D. rewrite Ed in F. easy. }
  { rewrite Sm. intros idx V. specialize (St idx V). specialize (Vm idx V). cbv zeta in St. unfold cell_op in Vm. rewrite Dm. unfold cell_op.
    destruct (masked (at_ (elems a) idx)) eqn:M.
    - assert (Q : at_ (elems m) idx = at_ (elems a) idx) by congruence. rewrite Q, M. eexists. reflexivity.
    - destruct St as (v & w & E1 & E2 & _). rewrite E1 in Vm. cbn [rbind] in Vm.
      assert (Q : at_ (elems m) idx = mkCell v false) by congruence. rewrite Q. cbn [masked val]. rewrite E2. eexists. reflexivity. }
  destruct (array_op_inv _ _ _ _ Er) as (Dr & Sr & Vr). rewrite Dm, PD in Dr. rewrite Dm in Vr.
  exists r. unfold mul_add. rewrite Em. cbn [rbind]. split; [assumption|]. split; [assumption|]. split; [congruence|].
  intros idx V x y. specialize (St idx V). specialize (Vm idx V). rewrite Sm in Vr. specialize (Vr idx V).
  cbv zeta in St. unfold x, y. unfold cell_op in Vm, Vr. destruct (masked (at_ (elems a) idx)) eqn:M.
  - assert (Q : at_ (elems m) idx = at_ (elems a) idx) by congruence. rewrite Q, M in Vr.
    split; [|discriminate]. assert (Q2 : at_ (elems r) idx = at_ (elems a) idx) by congruence. rewrite Q2. assumption.
  - destruct St as (v & w & E1 & E2 & Fs). rewrite E1 in Vm. cbn [rbind] in Vm.
    assert (Q : at_ (elems m) idx = mkCell v false) by congruence. rewrite Q in Vr. cbn [masked val] in Vr. rewrite E2 in Vr. cbn [rbind] in Vr.
    assert (Q2 : at_ (elems r) idx = mkCell w false) by congruence. rewrite Q2. split; [reflexivity|]. intros _. exact Fs.
Qed.
(** when everything is representable, the result is the exact one *)
Lemma float_scaled_exact d s o q r : float_scaled d s o (Fin q) r -> holds d q -> holds d s -> holds d o -> holds d (q * s) ->
  holds d (q * s + o) -> exactly s o (Fin q) r.
Proof.
  intros (x' & s' & o' & m & r' & -> & Nx & Ns & No & Nm & Nr) Hq Hs Ho Hm Hr. exists r'. split; [reflexivity|].
  pose proof (nearest_held _ _ _ Nx Hq) as Ex. pose proof (nearest_held _ _ _ Ns Hs) as Es. pose proof (nearest_held _ _ _ No Ho) as Eo.
  assert (Pr : forall a b, (a == b)%Q -> holds d a -> holds d b).
  { intros a b E. destruct d; cbn.
    - intros (z & Hz & H). exists z. split; [now rewrite <- E|assumption].
    - intros [(mm & k & G & H) B]. split; [exists mm, k; split; [now rewrite <- E|assumption]|now rewrite <- E].
    - intros [(mm & k & G & H) B]. split; [exists mm, k; split; [now rewrite <- E|assumption]|now rewrite <- E]. }
  assert (Em : (m == x' * s')%Q) by (apply (nearest_held _ _ _ Nm); apply (Pr (q * s)%Q); [now rewrite Ex, Es|assumption]).
  assert (Er : (r' == m + o')%Q) by (apply (nearest_held _ _ _ Nr); apply (Pr (q * s + o)%Q); [now rewrite Em, Ex, Es, Eo|assumption]).
  now rewrite Er, Em, Ex, Es, Eo.
Qed.

(** ** Labels *)
Lemma says_factor block key dflt c : says block key dflt c -> label_factor block key dflt = Ok (FNum c).
Proof.
  intros H. unfold label_factor. destruct H as [E|t E I|z E|q E|d z E V|d q E V]; rewrite E; cbn [rbind].
  - reflexivity.
  - apply str_in_iff in I. now rewrite I.
  - reflexivity.
  - reflexivity.
  - rewrite V. reflexivity.
  - rewrite V. reflexivity.
Qed.
Lemma says_planes_factor block key cs dflt : says_planes block key cs -> label_factor block key dflt = Ok (FList cs).
Proof.
  intros (vs & E & H). unfold label_factor. rewrite E. cbn [rbind factor_of].
  assert (R : rmap (fun x => match scalar_of x with Some c => Ok c | None => Err TypeError end) vs = Ok cs).
  { apply rmap_spec. clear E. induction H as [|v c vs cs Hv H IH]; constructor; [|assumption]. rewrite Hv. now destruct c. }
  now rewrite R.
Qed.
Lemma factor_is_iff c z : factor_is (FNum c) z = true <-> (scalar_q c == inject_Z z)%Q.
Proof. cbn. apply Qeq_bool_iff. Qed.
Lemma unscaled_iff s o : factor_is (FNum s) 1 && factor_is (FNum o) 0 = true <-> unscaled s o.
Proof. rewrite andb_true_iff, !factor_is_iff. reflexivity. Qed.
Lemma copy_scale_num a s o : copy_scale a (FNum o) (FNum s) = mul_add a s o.
Proof. unfold copy_scale, per_plane. destruct (first_len a); reflexivity. Qed.
Lemma overflow_wrap_ok f a x y r : f a x y = Ok r -> overflow_wrap f a x y = Ok r.
Proof. intros H. unfold overflow_wrap. now rewrite H. Qed.
Lemma scale_array_num block a fd s o r : says block $"SCALING_FACTOR" 1 s -> says block $"OFFSET" 0 o -> ~ unscaled s o ->
  let a' := if casting_to_float a (FNum s) (FNum o) then match fd with Some d => astype d a | None => a end else a in
  mul_add a' s o = Ok r -> scale_array block a false fd = Ok r.
Proof.
  intros Hs Ho N a' E. unfold scale_array. rewrite (says_factor _ _ _ _ Hs), (says_factor _ _ _ _ Ho). cbn [rbind].
  assert (U : factor_is (FNum s) 1 && factor_is (FNum o) 0 = false).
  { apply not_true_iff_false. rewrite unscaled_iff. exact N. }
  rewrite U. cbn [andb]. fold a'. apply overflow_wrap_ok. now rewrite copy_scale_num.
Qed.
Lemma scale_array_unscaled block a ip fd s o : says block $"SCALING_FACTOR" 1 s -> says block $"OFFSET" 0 o -> unscaled s o ->
  scale_array block a ip fd = Ok a.
Proof.
  intros Hs Ho U. unfold scale_array. rewrite (says_factor _ _ _ _ Hs), (says_factor _ _ _ _ Ho). cbn [rbind].
  apply unscaled_iff in U. now rewrite U.
Qed.
Lemma unscaled_dec s o : unscaled s o \/ ~ unscaled s o.
Proof.
  unfold unscaled. destruct (Qeq_dec (scalar_q s) 1), (Qeq_dec (scalar_q o) 0); tauto.
Qed.

(** ** Casting an integer array to floats first *)
Lemma astype_float D a : is_float D -> well_typed a -> ~ is_float (dtype a) -> well_typed (astype D a) /\
  forall idx, valid (shape (elems a)) idx -> forall q, val (at_ (elems a) idx) = Fin q ->
    val (at_ (elems (astype D a)) idx) = Fin (round_to D q) /\ nearest D q (round_to D q).
Proof.
  intros F [P W] NF.
  assert (G : forall idx, valid (shape (elems a)) idx -> forall q, val (at_ (elems a) idx) = Fin q ->
    val (at_ (elems (astype D a)) idx) = Fin (round_to D q) /\ nearest D q (round_to D q)).
  { intros idx V q E. cbn. rewrite E. split.
    - destruct D; [easy|reflexivity|reflexivity].
    - specialize (W idx V). rewrite E in W. apply (nearest_elem (dtype a)); try assumption. easy. }
  split; [|exact G]. split; [destruct D; [easy|exact I|exact I]|]. intros idx V. cbn [astype elems shape] in V.
  specialize (W idx V). destruct (val (at_ (elems a) idx)) as [q| |] eqn:E; [|easy|easy].
  destruct (G idx V q E) as [-> N]. apply N.
Qed.

(** ** Planes *)
Lemma seq_split_nth {A} (l : list A) n d : List.length l = n -> map (fun i => nth i l d) (seq 0 n) = l.
Proof.
  intros <-. induction l as [|x l IH]; [reflexivity|]. cbn [List.length seq map nth]. f_equal. rewrite <- seq_shift, map_map. exact IH.
Qed.
Lemma dt_eqb_refl d : dt_eqb d d = true.
Proof. destruct d as [[] b| |]; cbn; rewrite ?Z.eqb_refl; reflexivity. Qed.
Lemma stack_same ps D sh : Forall (fun p => dtype p = D) ps -> ps <> [] ->
  dtype (stack ps sh) = D /\ shape (elems (stack ps sh)) = List.length ps :: sh /\
  forall i p idx, nth_error ps i = Some p -> at_ (elems (stack ps sh)) (i :: idx) = at_ (elems p) idx.
Proof.
  intros H NE. unfold stack. destruct ps as [|p0 ps]; [easy|]. pose proof (Forall_inv H) as E0. apply Forall_inv_tail in H.
  assert (B : forallb (fun p' => dt_eqb (dtype p0) (dtype p')) ps = true).
  { apply forallb_forall. intros p I. rewrite Forall_forall in H. rewrite E0, (H p I). apply dt_eqb_refl. }
  rewrite B. 
  assert (M : map (as_dtype (dtype p0)) (p0 :: ps) = p0 :: ps).
  { rewrite <- map_id. apply map_ext_in. intros p I.
    assert (E : dtype p = dtype p0) by (destruct I as [->|I]; [reflexivity|rewrite Forall_forall in H; rewrite (H p I); now rewrite E0]).
    unfold as_dtype. now rewrite E, dt_eqb_refl. }
  rewrite M. cbn [dtype elems shape at_]. split; [assumption|]. split; [reflexivity|]. intros i p idx ->. reflexivity.
Qed.
(** scaling a 3-D array plane by plane *)
Lemma copy_scale_planes a n rows cols s o D (Rel : nat -> cell -> cell -> Prop) :
  shape (elems a) = [n; rows; cols] -> List.length s = n -> List.length o = n -> (1 < n)%nat ->
  (forall i, (i < n)%nat -> exists p, mul_add (plane a i) (nth i s (SI 0)) (nth i o (SI 0)) = Ok p /\ dtype p = D /\
     shape (elems p) = [rows; cols] /\ forall idx, valid [rows; cols] idx -> Rel i (at_ (elems a) (i :: idx)) (at_ (elems p) idx)) ->
  exists r, copy_scale a (FList o) (FList s) = Ok r /\ dtype r = D /\ shape (elems r) = [n; rows; cols] /\
    (forall i idx, valid [n; rows; cols] (i :: idx) -> Rel i (at_ (elems a) (i :: idx)) (at_ (elems r) (i :: idx))).
Proof.
  intros Sh Ls Lo N H. unfold copy_scale, per_plane, first_len. rewrite Sh, Ls, Lo, Nat.eqb_refl. 
  assert (N1 : (1 <? n)%nat = true) by now apply Nat.ltb_lt. rewrite N1. cbn [andb].
  destruct (rmap_total (fun i => mul_add (plane a i) (nth i s (SI 0)) (nth i o (SI 0))) (seq 0 n)) as [ps E].
  { intros i I. apply in_seq in I. destruct (H i ltac:(lia)) as (p & Ep & _). now exists p. }
  rewrite E. cbn [rbind]. apply rmap_spec in E. pose proof (F2_nth _ _ _ E) as [Lp Np]. rewrite seq_length in Lp.
  assert (Get : forall i, (i < n)%nat -> exists p, nth_error ps i = Some p /\ mul_add (plane a i) (nth i s (SI 0)) (nth i o (SI 0)) = Ok p).
  { intros i Hi. apply Np. rewrite (nth_error_nth' _ O) by (now rewrite seq_length). now rewrite seq_nth. }
  assert (All : Forall (fun p => dtype p = D /\ shape (elems p) = [rows; cols]) ps).
  { apply Forall_forall. intros p I. apply In_nth_error in I. destruct I as [i Ei].
    assert (Hi : (i < n)%nat) by (rewrite Lp; apply nth_error_Some; congruence).
    destruct (Get i Hi) as (p' & E1 & E2). destruct (H i Hi) as (p'' & E3 & Dp & Sp & _). split; congruence. }
  destruct ps as [|p0 ps']; [cbn in Lp; lia|]. destruct (Forall_inv All) as [_ S0]. unfold restack. rewrite S0.
  set (ps := p0 :: ps') in *.
  assert (AD : Forall (fun p => dtype p = D) ps) by (revert All; apply Forall_impl; tauto).
  destruct (stack_same ps D [rows; cols] AD ltac:(discriminate)) as (Dr & Sr & Vr).
  eexists. split; [reflexivity|]. split; [assumption|]. split; [rewrite Sr, <- Lp; reflexivity|].
  intros i idx V. inversion V as [|? ? ? ? Hi V']; subst. destruct (Get i Hi) as (p & E1 & E2). destruct (H i Hi) as (p' & E3 & _ & _ & R).
  rewrite (Vr i p idx E1). replace p with p' by congruence. now apply R.
Qed.

(** ** Planes *)
Lemma plane_typed a n rows cols i : shape (elems a) = [n; rows; cols] -> (i < n)%nat -> well_typed a -> well_typed (plane a i).
Proof.
  intros Sh Hi [P W]. split; [exact P|]. intros idx V. unfold plane in *. cbn [elems shape at_ dtype] in *. rewrite Sh in V. cbn [tl] in V.
  apply (W (i :: idx)). rewrite Sh. now constructor.
Qed.
Lemma says_planes_nonunit a offset scale block fd so : says_planes block $"SCALING_FACTOR" scale -> says_planes block $"OFFSET" offset ->
  so = (if casting_to_float a (FList scale) (FList offset) then match fd with Some d => astype d a | None => a end else a) ->
  forall r, copy_scale so (FList offset) (FList scale) = Ok r -> scale_array block a false fd = Ok r.
Proof.
  intros Hs Ho -> r E. unfold scale_array. rewrite (says_planes_factor _ _ _ _ Hs), (says_planes_factor _ _ _ _ Ho). cbn [rbind factor_is andb].
  apply overflow_wrap_ok. exact E.
Qed.
Lemma nth_nth_error {A} (l : list A) i x d : nth_error l i = Some x -> nth i l d = x.
Proof. revert i. induction l; intros [|i]; cbn; try discriminate; [congruence|apply IHl]. Qed.
(** float arrays, and integers whose factors are all fractions *)
Lemma copy_scale_planes_float a n rows cols s o D : shape (elems a) = [n; rows; cols] -> well_typed a ->
  List.length s = n -> List.length o = n -> (1 < n)%nat -> is_float D ->
  (D = dtype a \/ D = DF64 /\ Forall (fun c => exists q, c = SF q) s /\ ~ is_float (dtype a)) ->
  Forall (fun c => moderate D (scalar_q c)) s -> Forall (fun c => moderate D (scalar_q c)) o ->
  (forall i idx q c, valid (shape (elems a)) (i :: idx) -> nth_error s i = Some c -> masked (at_ (elems a) (i :: idx)) = false ->
     val (at_ (elems a) (i :: idx)) = Fin q -> moderate D (q * scalar_q c)) ->
  exists r, copy_scale a (FList o) (FList s) = Ok r /\ dtype r = D /\
    scaled_by (fun idx x y => forall i c k, hd_error idx = Some i -> nth_error s i = Some c -> nth_error o i = Some k ->
                 float_scaled D (scalar_q c) (scalar_q k) x y) a r.
Proof.
  intros Sh W Ls Lo N F HD Ms Mo Mx.
  destruct (copy_scale_planes a n rows cols s o D
     (fun i x y => masked y = masked x /\ (masked x = false -> float_scaled D (scalar_q (nth i s (SI 0))) (scalar_q (nth i o (SI 0))) (val x) (val y))) Sh Ls Lo N)
    as (r & E & Dr & Sr & Vr).
  { intros i Hi. assert (Es : exists c, nth_error s i = Some c) by (destruct (nth_error s i) eqn:E; [eauto|]; apply nth_error_None in E; lia).
    assert (Eo : exists c, nth_error o i = Some c) by (destruct (nth_error o i) eqn:E; [eauto|]; apply nth_error_None in E; lia).
    destruct Es as [c Es], Eo as [k Eo].
    pose proof (nth_nth_error _ _ _ (SI 0) Es) as Ns. pose proof (nth_nth_error _ _ _ (SI 0) Eo) as No.
    destruct (mul_add_float (plane a i) c k D) as (p & Ep & Dp & Sp & Vp); try assumption.
    - cbn [plane dtype]. destruct HD as [->|(-> & Fs & NF)].
      + destruct (dtype a); [easy|reflexivity|reflexivity].
      + rewrite Forall_forall in Fs. destruct (Fs c (nth_error_In _ _ Es)) as [q ->]. destruct (dtype a); [reflexivity|now destruct NF|now destruct NF].
    - now apply (plane_typed a n rows cols).
    - rewrite Forall_forall in Ms. apply Ms. now apply (nth_error_In _ i).
    - rewrite Forall_forall in Mo. apply Mo. now apply (nth_error_In _ i).
    - intros idx q V M Eq. unfold plane in V, M, Eq. cbn [elems shape at_] in V, M, Eq. rewrite Sh in V. apply (Mx i idx q c); try assumption. rewrite Sh. now constructor.
    - exists p. rewrite Ns, No. split; [assumption|]. split; [assumption|]. unfold plane in Sp, Vp. cbn [elems shape at_] in Sp, Vp. rewrite Sh in Sp, Vp. cbn [tl] in Sp, Vp.
      split; [assumption|]. intros idx V. exact (Vp idx V). }
  exists r. split; [assumption|]. split; [assumption|]. split; [congruence|]. intros idx V x y.
  rewrite Sh in V. destruct idx as [|i idx]; [inversion V|]. specialize (Vr i idx V). fold x y in Vr. destruct Vr as [Vm Vr]. split; [assumption|].
  intros Mf i' c k [= <-] Es Eo. specialize (Vr Mf). now rewrite (nth_nth_error _ _ _ _ Es), (nth_nth_error _ _ _ _ Eo) in Vr.
Qed.
Lemma copy_scale_planes_int a n rows cols s o sg b : shape (elems a) = [n; rows; cols] -> well_typed a -> dtype a = DInt sg b ->
  List.length s = n -> List.length o = n -> (1 < n)%nat ->
  Forall (int_holds sg b) s -> Forall (int_holds sg b) o ->
  (forall i idx q c k, valid (shape (elems a)) (i :: idx) -> nth_error s i = Some c -> nth_error o i = Some k -> masked (at_ (elems a) (i :: idx)) = false ->
     val (at_ (elems a) (i :: idx)) = Fin q -> holds (dtype a) (q * inject_Z c + inject_Z k)) ->
  exists r, copy_scale a (FList (map SI o)) (FList (map SI s)) = Ok r /\ dtype r = dtype a /\
    scaled_by (fun idx x y => forall i c k, hd_error idx = Some i -> nth_error s i = Some c -> nth_error o i = Some k ->
                 exactly (inject_Z c) (inject_Z k) x y) a r.
Proof.
  intros Sh W D Ls Lo N Is Io Hr.
  destruct (copy_scale_planes a n rows cols (map SI s) (map SI o) (DInt sg b)
     (fun i x y => masked y = masked x /\ (masked x = false -> exists z, val x = Fin z /\ y = mkCell (Fin (inject_Z (wrap sg b (int_of z * (nth i s 0) + (nth i o 0))))) false)) Sh)
    as (r & E & Dr & Sr & Vr); try (rewrite map_length; assumption); [assumption| |].
  { intros i Hi. assert (Es : exists c, nth_error s i = Some c) by (destruct (nth_error s i) eqn:E; [eauto|]; apply nth_error_None in E; lia).
    assert (Eo : exists c, nth_error o i = Some c) by (destruct (nth_error o i) eqn:E; [eauto|]; apply nth_error_None in E; lia).
    destruct Es as [c Es], Eo as [k Eo]. rewrite !map_nth.
    pose proof (nth_nth_error _ _ _ 0 Es) as Ns. pose proof (nth_nth_error _ _ _ 0 Eo) as No. rewrite Ns, No.
    destruct (mul_add_int (plane a i) sg b c k) as (p & Ep & Dp & Sp & Vp).
    - exact D.
    - now apply (plane_typed a n rows cols).
    - rewrite Forall_forall in Is. apply Is. now apply (nth_error_In _ i).
    - rewrite Forall_forall in Io. apply Io. now apply (nth_error_In _ i).
    - exists p. split; [assumption|]. split; [assumption|]. unfold plane in Sp, Vp. cbn [elems shape at_] in Sp, Vp. rewrite Sh in Sp, Vp. cbn [tl] in Sp, Vp.
      split; [assumption|]. intros idx V. specialize (Vp idx V). cbv zeta in Vp. destruct (masked (at_ (elems a) (i :: idx))) eqn:M.
      + split; [now rewrite Vp|discriminate].
      + destruct Vp as (z & Ez & ->). split; [reflexivity|]. intros _. now exists z. }
  exists r. split; [assumption|]. split; [congruence|]. split; [congruence|]. intros idx V x y. pose proof V as V'.
  rewrite Sh in V. destruct idx as [|i idx]; [inversion V|]. specialize (Vr i idx V). fold x y in Vr. destruct Vr as [Vm Vr]. split; [assumption|].
  intros Mf i' c k [= <-] Es Eo. destruct (Vr Mf) as (q & Eq & Ey). rewrite (nth_nth_error _ _ _ _ Es), (nth_nth_error _ _ _ _ Eo) in Ey.
  rewrite Eq, Ey. cbn [val exactly]. eexists. split; [reflexivity|].
  specialize (Hr i idx q c k V' Es Eo Mf Eq). rewrite D in Hr. destruct Hr as (w & Hw & Bw). destruct W as [P W]. specialize (W _ V'). fold x in W.
  rewrite Eq, D in W. destruct W as (z & Hz & _).
  assert (Ew : (z * c + k)%Z = w).
  { assert (inject_Z (z * c + k) == inject_Z w)%Q by (rewrite <- Hw, Hz, inject_Z_plus, inject_Z_mult; reflexivity).
    unfold Qeq in H. cbn in H. lia. }
  rewrite (int_of_Z _ _ Hz), Ew, Hw. rewrite D in P. rewrite wrap_id by assumption. reflexivity.
Qed.

(** ** In place *)
Lemma stacked_in_place a n rows cols s o : is_float (dtype a) -> shape (elems a) = [n; rows; cols] -> (0 < n)%nat ->
  (do ps <- rmap (fun i => mul_add (plane a i) (nth i s (SI 0)) (nth i o (SI 0))) (seq 0 n);
   Ok (as_dtype (dtype a) (stack ps (tl (shape (elems a)))))) =
  (do ps <- rmap (fun i => mul_add (plane a i) (nth i s (SI 0)) (nth i o (SI 0))) (seq 0 n); restack ps).
Proof.
  intros F Sh N. destruct (rmap _ (seq 0 n)) as [ps|e] eqn:E; cbn [rbind]; [|reflexivity].
  apply rmap_spec in E. 
  assert (All : Forall (fun p => dtype p = dtype a /\ shape (elems p) = [rows; cols]) ps).
  { clear N. revert E. generalize (seq 0 n). intros l H. induction H as [|i p l ps Hp H IH]; constructor; [|exact IH].
    unfold mul_add in Hp. destruct (array_op OMul _ _) as [m|] eqn:Em; cbn [rbind] in Hp; [|discriminate].
    destruct (array_op_inv _ _ _ _ Em) as (Dm & Sm & _). destruct (array_op_inv _ _ _ _ Hp) as (Dp & Sp & _).
    assert (PR : forall c, promote (dtype a) c = dtype a) by (intros c; destruct (dtype a); [easy|reflexivity|reflexivity]).
    cbn [plane dtype elems shape] in Dm, Sm. split.
    - rewrite Dp, Dm, PR. apply PR.
    - rewrite Sp, Sm, Sh. reflexivity. }
  assert (L : List.length ps = n) by (apply F2_nth in E; destruct E as [L _]; rewrite seq_length in L; congruence).
  destruct ps as [|p0 ps']; [cbn in L; lia|]. unfold restack. destruct (Forall_inv All) as [D0 S0]. rewrite S0. f_equal.
  rewrite Sh. cbn [tl]. destruct (stack_same (p0 :: ps') (dtype a) [rows; cols]) as (Dr & _).
  { revert All. apply Forall_impl. tauto. } { discriminate. }
  unfold as_dtype. now rewrite Dr, dt_eqb_refl.
Qed.
Lemma any_op_list_dtype o l a r : dtype a = DF64 -> any_op o (FList l) a = Ok r -> dtype r = DF64.
Proof.
  intros D. cbn [any_op]. unfold array_op_list. rewrite D. destruct (negb _); [discriminate|].
  destruct (traverse _ _); cbn [rbind]; [|discriminate]. intros [= <-]. reflexivity.
Qed.

(** ** fit_to_scale *)
Lemma fold_num_spec (le : Q -> Q -> Prop) f l m : (forall x, le x x) -> (forall x y z, le x y -> le y z -> le x z) ->
  (forall x y, (f x y = x \/ f x y = y) /\ le (f x y) x /\ le (f x y) y) ->
  fold_num f l = Ok m -> In (Fin m) l /\ Forall (fun n => exists q, n = Fin q /\ le m q) l.
Proof.
  intros R T Hf. revert m. induction l as [|n l IH]; intros m; [discriminate|]. cbn [fold_num].
  destruct n as [q| |]; [|discriminate|discriminate]. destruct l as [|n' l'].
  - intros [= <-]. split; [now left|]. constructor; [|constructor]. exists q. now split.
  - destruct (fold_num f (n' :: l')) as [r|]; cbn [rbind]; [|discriminate]. intros [= <-]. destruct (IH r eq_refl) as [I F].
    destruct (Hf q r) as (C & L1 & L2). split.
    + destruct C as [->| ->]; [now left|right; exact I].
    + constructor; [exists q; now split|]. revert F. apply Forall_impl. intros n (x & -> & L). exists x. split; [reflexivity|]. now apply (T _ r).
Qed.
Lemma fold_num_total f l : l <> [] -> Forall (fun n => exists q, n = Fin q) l -> exists m, fold_num f l = Ok m.
Proof.
  intros NE. induction l as [|n l IH]; [easy|]. intros F. destruct (Forall_inv F) as [q ->]. apply Forall_inv_tail in F.
  destruct l as [|n' l']; [now exists q|]. destruct (IH ltac:(discriminate) F) as [m Em]. cbn [fold_num] in *.
  destruct (match n' with Fin _ => _ | _ => _ end); [|discriminate]. eexists. reflexivity.
Qed.
Lemma qmin_spec x y : (qmin x y = x \/ qmin x y = y) /\ (qmin x y <= x)%Q /\ (qmin x y <= y)%Q.
Proof.
  unfold qmin. destruct (Qle_bool x y) eqn:E.
  - apply Qle_bool_iff in E. split; [now left|]. split; [apply Qle_refl|assumption].
  - assert (~ (x <= y)%Q) by (rewrite <- Qle_bool_iff; congruence). split; [now right|]. split; [|apply Qle_refl]. apply Qlt_le_weak. now apply Qnot_le_lt.
Qed.
Lemma qmax_spec x y : (qmax x y = x \/ qmax x y = y) /\ (x <= qmax x y)%Q /\ (y <= qmax x y)%Q.
Proof.
  unfold qmax. destruct (Qle_bool x y) eqn:E.
  - apply Qle_bool_iff in E. split; [now right|]. split; [assumption|apply Qle_refl].
  - assert (~ (x <= y)%Q) by (rewrite <- Qle_bool_iff; congruence). split; [now left|]. split; [apply Qle_refl|]. apply Qlt_le_weak. now apply Qnot_le_lt.
Qed.
Lemma in_ravel {A} (a : arr A) x : In x (ravel a) <-> exists idx, valid (shape a) idx /\ at_ a idx = x.
Proof.
  unfold ravel. rewrite in_map_iff. split.
  - intros (k & E & I). apply in_seq in I. exists (unlin (shape a) k). split; [|assumption]. apply unlin_valid. unfold size in I. lia.
  - intros (idx & V & E). exists (lin (shape a) idx). split; [now rewrite unlin_lin|]. apply in_seq. pose proof (lin_lt _ _ V). unfold size. lia.
Qed.
Lemma in_unmasked a n : In n (unmasked_values a) <-> exists idx, valid (shape (elems a)) idx /\ masked (at_ (elems a) idx) = false /\ val (at_ (elems a) idx) = n.
Proof.
  unfold unmasked_values. rewrite in_map_iff. split.
  - intros (c & E & I). apply filter_In in I. destruct I as [I M]. apply in_ravel in I. destruct I as (idx & V & <-). exists idx.
    split; [assumption|]. split; [now apply negb_true_iff|assumption].
  - intros (idx & V & M & E). exists (at_ (elems a) idx). split; [assumption|]. apply filter_In. split; [apply in_ravel; now exists idx|now apply negb_true_iff].
Qed.
Lemma trunc_Z q z : (q == inject_Z z)%Q -> trunc q = z.
Proof.
  unfold Qeq, trunc. destruct q as [n d]. cbn [Qnum Qden inject_Z]. rewrite Z.mul_1_r. intros ->. apply Z.quot_mul. lia.
Qed.
Lemma is_integral_SI z : is_integral (SI z) = true. Proof. reflexivity. Qed.
Lemma fits_int x y s b : fits (inject_Z x) (inject_Z y) (DInt s b) = true <-> imin s b <= x /\ y <= imax s b.
Proof. unfold fits. cbn [type_min type_max]. rewrite andb_true_iff, !Qle_bool_iff, <- !Zle_Qle. reflexivity. Qed.
(** the type chosen for a range of integers *)
Lemma choose_int lo hi s o d : 0 <= s -> lo <= hi -> choose_type false lo hi (SI s) (SI o) = Ok d ->
  exists sg b, d = DInt sg b /\ numpy_int b /\ (forall z, lo <= z <= hi -> int_holds sg b (z * s + o)) /\
    forall sg' b', numpy_int b' -> int_holds sg' b' (lo * s + o) -> int_holds sg' b' (hi * s + o) -> b <= b'.
Proof.
  intros S LH. unfold choose_type. cbn [orb s_op is_integral negb scalar_q]. intros H.
  destruct (find _ int_candidates) as [d'|] eqn:E; [|discriminate]. injection H as <-.
  set (x := lo * s + o) in *. set (y := hi * s + o) in *.
  assert (Mid : forall z, lo <= z <= hi -> x <= z * s + o <= y) by (intros z Hz; unfold x, y; split; nia).
  unfold int_candidates in E. cbn [find] in E.
  repeat match type of E with
  | (if fits ?u ?v (DInt ?sg ?b) then _ else _) = _ =>
      let F := fresh "F" in destruct (fits u v (DInt sg b)) eqn:F;
      [apply fits_int in F; cbn in F; injection E as <-; exists sg, b; split; [reflexivity|]; split; [unfold numpy_int; lia|]; split;
        [intros z Hz; specialize (Mid z Hz); unfold int_holds; cbn; lia|]
      |apply not_true_iff_false in F; rewrite fits_int in F; cbn in F]
  end; [| | | | | | | |discriminate]; intros sg' b' B' H1 H2; destruct B' as [->|[->|[->| ->]]]; destruct sg'; cbn in H1, H2; lia.
Qed.
Lemma choose_int_total lo hi s o sg b : numpy_int b -> int_holds sg b (lo * s + o) -> int_holds sg b (hi * s + o) ->
  exists d, choose_type false lo hi (SI s) (SI o) = Ok d.
Proof.
  intros B H1 H2. unfold choose_type. cbn [orb s_op is_integral negb scalar_q].
  destruct (find _ int_candidates) as [d'|] eqn:E; [now exists d'|]. exfalso.
  pose proof (find_none _ _ E (DInt sg b)) as N.
  assert (I : In (DInt sg b) int_candidates) by (unfold int_candidates; destruct B as [->|[->|[->| ->]]]; destruct sg; cbn; tauto).
  specialize (N I). apply not_true_iff_false in N. apply N. apply fits_int. unfold imin, imax. destruct sg; cbn [int_holds] in H1, H2; unfold int_holds in *; lia.
Qed.

(** ** Special constants *)
Lemma scalar_of_iff v k : scalar_of v = Some k <-> number_is v k.
Proof.
  split.
  - destruct v; cbn; intros [= <-]; constructor.
  - intros []; reflexivity.
Qed.
Definition explicit_one (block : multidict) (name : str) : res (str * const) :=
  do v <- match md_get block name with
          | Some (PTuple (x :: _)) => Ok x
          | Some (PTuple []) => Err IndexError
          | Some v => Ok v
          | None => Err KeyError end;
  do c <- const_of v; Ok (name, c).
Lemma explicit_one_iff block name kv : explicit_one block name = Ok kv <->
  exists k v, kv = (name, CNum k) /\ number_is v k /\ (md_get block name = Some v \/ exists vs, md_get block name = Some (PTuple (v :: vs))).
Proof.
  unfold explicit_one, const_of. split.
  - destruct (md_get block name) as [w|] eqn:E; cbn [rbind]; [|discriminate].
    assert (K : forall v, (exists vs, w = PTuple (v :: vs)) \/ w = v ->
       rbind (match scalar_of v with Some c => Ok (CNum c) | None => Err TypeError end) (fun c => Ok (name, c)) = Ok kv ->
       exists k v0, kv = (name, CNum k) /\ number_is v0 k /\ (Some w = Some v0 \/ exists vs, Some w = Some (PTuple (v0 :: vs)))).
    { intros v HV. destruct (scalar_of v) as [k|] eqn:Ek; cbn [rbind]; [|discriminate]. intros [= <-]. exists k, v. split; [reflexivity|].
      split; [now apply scalar_of_iff|]. destruct HV as [[vs ->]| ->]; [right; now exists vs|now left]. }
    destruct w as [| | | | |l| | |]; try (apply K; now right). destruct l as [|x l]; [discriminate|]. apply K. left. now exists l.
  - intros (k & v & -> & Nv & [-> |[vs ->]]); cbn [rbind].
    + assert (NT : forall l, v <> PTuple l) by (intros l ->; inversion Nv). apply scalar_of_iff in Nv. destruct v; cbn [rbind]; try discriminate Nv; rewrite Nv; reflexivity.
    + apply scalar_of_iff in Nv. now rewrite Nv.
Qed.
Lemma explicit_spec block l : explicit_constants block = Ok l -> forall name c,
  dict_get l name = Some c <-> exists k, c = CNum k /\ label_constant block name k.
Proof.
  unfold explicit_constants. change (fun name => rbind _ _) with (explicit_one block). intros H. apply rmap_spec in H.
  assert (Keep : forall name, In name (filter (fun name => match md_get block name with None => false | Some (PStr s) => negb (str_eqb s $"N/A") | Some _ => true end) PDS3_CONSTANT_NAMES)
     <-> In name PDS3_CONSTANT_NAMES /\ match md_get block name with None => False | Some (PStr s) => s <> $"N/A" | Some _ => True end).
  { clear H. intros name. rewrite filter_In. generalize (In name PDS3_CONSTANT_NAMES). intros Pin. destruct (md_get block name) as [v|]; [|now split]. destruct v; try (split; intros [? _]; split; trivial; reflexivity).
    rewrite negb_true_iff. destruct (str_eqb_spec s $"N/A"); split; intros [? ?]; split; trivial; try discriminate; congruence. }
  set (names := filter _ _) in *. clearbody names. intros name c. split.
  - intros G. assert (exists name0, explicit_one block name0 = Ok (name, c) /\ In name0 names).
    { clear Keep. unfold dict_get in G. destruct (find _ l) as [kv|] eqn:F; [|discriminate]. injection G as <-. apply find_some in F. destruct F as [I E].
      apply str_eqb_eq in E. destruct kv as [k' c']. cbn [fst snd] in *. subst k'. clear -H I. induction H as [|n kv names l E H IH]; [easy|].
      destruct I as [->|I]; [exists n; split; [assumption|now left]|]. destruct (IH I) as (n' & ? & ?). exists n'. split; [assumption|now right]. }
    destruct H0 as (n0 & E & I). apply explicit_one_iff in E. destruct E as (k & v & [= <- ->] & Nv & G'). exists k. split; [reflexivity|].
    apply Keep in I. split; [apply I|]. now exists v.
  - intros (k & -> & I & v & Nv & G). assert (In name names).
    { apply Keep. split; [assumption|]. destruct G as [->|[vs ->]]; [|exact Logic.I]. inversion Nv; exact Logic.I. }
    assert (E : explicit_one block name = Ok (name, CNum k)) by (apply explicit_one_iff; now exists k, v).
    clear Keep. unfold dict_get. induction H as [|n kv names l E' H' IH]; [easy|]. cbn [find].
    pose proof E' as E''. apply explicit_one_iff in E''. destruct E'' as (k' & v' & -> & _). cbn [fst].
    destruct (str_eqb_spec n name) as [->|Ne]; [cbn [snd]; congruence|]. apply IH. destruct H0; [congruence|assumption].
Qed.
Lemma in_values a x : In x (values a) <-> exists idx, valid (shape (elems a)) idx /\ val (at_ (elems a) idx) = x.
Proof.
  unfold values. rewrite in_map_iff. split.
  - intros (c & E & I). apply in_ravel in I. destruct I as (idx & V & <-). now exists idx.
  - intros (idx & V & E). exists (at_ (elems a) idx). split; [assumption|]. apply in_ravel. now exists idx.
Qed.
Lemma nonfinite_iff a : forallb is_finite (values a) = false <-> has_nonfinite a.
Proof.
  split.
  - intros H. assert (~ Forall (fun x => is_finite x = true) (values a)).
    { rewrite Forall_forall. intros F. assert (forallb is_finite (values a) = true) by now apply forallb_forall. congruence. }
    assert (E : exists x, In x (values a) /\ is_finite x = false).
    { clear H. induction (values a) as [|x l IH]; [exfalso; apply H0; constructor|]. destruct (is_finite x) eqn:Ex.
      - destruct IH as (y & I & Ey); [intros F; apply H0; now constructor|]. exists y. split; [now right|assumption].
      - exists x. split; [now left|assumption]. }
    destruct E as (x & I & Ex). apply in_values in I. destruct I as (idx & V & <-). exists idx. split; [assumption|]. intros q E. rewrite E in Ex. discriminate.
  - intros (idx & V & N). apply not_true_iff_false. intros F. rewrite forallb_forall in F. specialize (F (val (at_ (elems a) idx))).
    rewrite in_values in F. specialize (F (ex_intro _ idx (conj V eq_refl))). destruct (val (at_ (elems a) idx)) as [q| |] eqn:E; [now apply (N q)|discriminate|discriminate].
Qed.
Lemma implicit_scalar_q q : (scalar_q (implicit_scalar q) == q)%Q.
Proof. unfold implicit_scalar. destruct (Qeq_bool _ _) eqn:E; [cbn; now apply Qeq_bool_iff|reflexivity]. Qed.
(** the customary constants of integer types are integers, their names distinct *)
Lemma table_facts d l : proper_type d -> implicit_constants (dtype_name d) = Some l ->
  NoDup (map fst l) /\ (~ is_float d -> Forall (fun kv => (inject_Z (int_of (snd kv)) == snd kv)%Q) l).
Proof.
  assert (ND : forall m : list str, forallb (fun x => (count_occ (list_eq_dec ascii_dec) m x =? 1)%nat) m = true -> NoDup m).
  { intros m H. apply (NoDup_count_occ' (list_eq_dec ascii_dec)). intros x I. rewrite forallb_forall in H. now apply Nat.eqb_eq, H. }
  intros P E. destruct d as [s b| |]; [destruct P as [->|[->|[->| ->]]]; destruct s| |]; vm_compute in E; try discriminate E;
    injection E as <-; (split; [apply ND; vm_compute; reflexivity|]); intros F; try (now destruct F); repeat constructor; vm_compute; reflexivity.
Qed.
Lemma implicit_scalar_int q : (inject_Z (int_of q) == q)%Q -> implicit_scalar q = SI (int_of q).
Proof. intros E. unfold implicit_scalar. apply Qeq_bool_iff in E. now rewrite E. Qed.
Lemma Qeq_bool_comm_iff x y : Qeq_bool x y = true <-> (x == y)%Q. Proof. apply Qeq_bool_iff. Qed.
Lemma found_present a l name q : proper_type (dtype a) -> implicit_constants (dtype_name (dtype a)) = Some l -> In (name, q) l ->
  existsb (equals_in (dtype a) (implicit_scalar q)) (values a) = true <-> present a q.
Proof.
  intros P E I. destruct (table_facts _ _ P E) as [_ T]. rewrite existsb_exists. unfold present, contains_value.
  assert (K : forall x, equals_in (dtype a) (implicit_scalar q) (Fin x) = true <->
            (x == match dtype a with DInt _ _ => q | DF32 => round32 q | DF64 => round64 q end)%Q).
  { intros x. destruct (dtype a) as [s b| |] eqn:D.
    - rewrite Forall_forall in T. specialize (T ltac:(intros []) _ I). cbn [snd] in T. rewrite (implicit_scalar_int _ T). cbn [equals_in].
      rewrite Qeq_bool_iff, T. reflexivity.
    - cbn [equals_in round_to]. rewrite Qeq_bool_iff. pose proof (round_to_proper DF32 _ _ (implicit_scalar_q q)) as R. cbn [round_to] in R. rewrite R. reflexivity.
    - cbn [equals_in round_to]. rewrite Qeq_bool_iff. pose proof (round_to_proper DF64 _ _ (implicit_scalar_q q)) as R. cbn [round_to] in R. rewrite R. reflexivity. }
  split.
  - intros (x & Ix & Ex). apply in_values in Ix. destruct Ix as (idx & V & Ev). destruct x as [x| |]; [|discriminate|discriminate].
    exists idx, x. split; [assumption|]. split; [assumption|]. now apply K.
  - intros (idx & x & V & Ev & Ex). exists (Fin x). split; [apply in_values; now exists idx|]. now apply K.
Qed.
Lemma dict_get_set {A} (d : list (str * A)) k v k' : dict_get (dict_set d k v) k' = if str_eqb k k' then Some v else dict_get d k'.
Proof.
  unfold dict_get. induction d as [|[x w] d IH]; cbn [dict_set find fst].
  - destruct (str_eqb k k'); reflexivity.
  - destruct (str_eqb_spec x k) as [->|Hx]; cbn [find fst snd].
    + destruct (str_eqb_spec k k'); reflexivity.
    + destruct (str_eqb_spec x k') as [->|Hk]; [|exact IH]. destruct (str_eqb_spec k k'); [congruence|reflexivity].
Qed.
Lemma fold_sets (f : Q -> const) p (l : list (str * Q)) d0 name : NoDup (map fst l) ->
  (forall q, In (name, q) l -> p (name, q) = true -> dict_get (fold_left (fun d kv => dict_set d (fst kv) (f (snd kv))) (filter p l) d0) name = Some (f q)) /\
  ((forall q, In (name, q) l -> p (name, q) = false) -> dict_get (fold_left (fun d kv => dict_set d (fst kv) (f (snd kv))) (filter p l) d0) name = dict_get d0 name).
Proof.
  revert d0. induction l as [|[k x] l IH]; intros d0 ND; [now split|]. cbn [map fst] in ND. inversion ND as [|? ? NI ND']; subst. cbn [filter].
  split.
  - intros q [E|I] Hp.
    + injection E as -> ->. rewrite Hp. cbn [fold_left fst snd].
      assert (N : forall q', In (name, q') l -> p (name, q') = false) by (intros q' I; exfalso; apply NI; now apply (in_map fst) in I).
      rewrite (proj2 (IH _ ND') N), dict_get_set, str_eqb_refl. reflexivity.
    + destruct (p (k, x)); cbn [fold_left]; now apply (IH _ ND').
  - intros N. destruct (p (k, x)) eqn:Pk; cbn [fold_left fst snd].
    + rewrite (proj2 (IH _ ND')) by (intros q I; apply N; now right). rewrite dict_get_set.
      destruct (str_eqb_spec k name) as [->|]; [|reflexivity]. rewrite (N x (or_introl eq_refl)) in Pk. discriminate.
    + apply (proj2 (IH _ ND')). intros q I. apply N. now right.
Qed.
Lemma uint8_name d : proper_type d -> str_eqb (dtype_name d) $"uint8" = true <-> is_uint8 d.
Proof.
  unfold is_uint8. intros P. destruct d as [s b| |]; [|now split|now split].
  destruct P as [->|[->|[->| ->]]]; destruct s; vm_compute; split; intros E; try discriminate; reflexivity.
Qed.
Lemma isin_iff d cs x :
  (~ is_float d /\ Forall (fun c => const_number c (fun k => exists z, k = SI z)) cs /\ ~ In CNan cs) \/
  (double_exact x /\ Forall (fun c => const_number c (fun k => double_exact (scalar_q k))) cs) ->
  isin d cs (Fin x) = true <-> exists k, In (CNum k) cs /\ (x == scalar_q k)%Q.
Proof.
  intros H. cbn [isin]. set (exact := match d with DInt _ _ => _ | _ => false end).
  rewrite existsb_exists.
  assert (K : forall c, In c cs -> (match c with CNum k => if exact then Qeq_bool x (scalar_q k) else Qeq_bool (round64 x) (round64 (scalar_q k)) | CNan => false end) = true <->
     exists k, c = CNum k /\ (x == scalar_q k)%Q).
  { intros c Ic. destruct c as [k|]; [|split; [discriminate|intros (k & [=] & _)]].
    assert (J : (x == scalar_q k)%Q <-> exists k0, CNum k = CNum k0 /\ (x == scalar_q k0)%Q).
    { split; [intros E; now exists k|]. intros (k0 & [= ->] & E). exact E. }
    rewrite <- J. destruct H as [(NF & F & NN)|(Dx & F)].
    - assert (X : exact = true).
      { unfold exact. destruct d; [|now destruct NF|now destruct NF]. apply forallb_forall. intros c' I. rewrite Forall_forall in F. specialize (F c' I).
        destruct c' as [k'|]; [|contradiction]. destruct F as [z ->]. reflexivity. }
      rewrite X. apply Qeq_bool_iff.
    - rewrite Forall_forall in F. specialize (F _ Ic). cbn [const_number] in F. destruct exact; [apply Qeq_bool_iff|].
      rewrite Qeq_bool_iff. pose proof (round_to_grid DF64 x I Dx) as R1. pose proof (round_to_grid DF64 (scalar_q k) I F) as R2. cbn [round_to] in R1, R2.
      rewrite R1, R2. reflexivity. }
  split.
  - intros (c & Ic & E). apply K in E; [|assumption]. destruct E as (k & -> & E). now exists k.
  - intros (k & Ik & E). exists (CNum k). split; [assumption|]. apply (K (CNum k) Ik). now exists k.
Qed.
Lemma single_is_double x : holds DF32 x -> holds DF64 x.
Proof.
  intros [(m & k & E & M & K) B]. split.
  - exists m, k. split; [assumption|]. split; [|lia]. assert (2 ^ 24 < 2 ^ 53)%Z by now apply Z.pow_lt_mono_r. lia.
  - eapply Qle_trans; [exact B|]. vm_compute. discriminate.
Qed.
Lemma has_nan_iff cs : has_nan cs = true <-> In CNan cs.
Proof.
  unfold has_nan. rewrite existsb_exists. split; [intros (c & Ic & E); destruct c; [discriminate|assumption]|].
  intros H. exists CNan. now split.
Qed.
(** ** Masks survive scaling *)
Definition same_mask (a r : ndarray) : Prop :=
  shape (elems r) = shape (elems a) /\ forall idx, valid (shape (elems a)) idx -> masked (at_ (elems r) idx) = masked (at_ (elems a) idx).
Lemma same_mask_trans a b c : same_mask a b -> same_mask b c -> same_mask a c.
Proof. intros [S1 M1] [S2 M2]. split; [congruence|]. intros idx V. rewrite M2, M1; [reflexivity|assumption|now rewrite S1]. Qed.
Lemma array_op_mask o c a r : array_op o c a = Ok r -> same_mask a r.
Proof.
  intros H. destruct (array_op_inv _ _ _ _ H) as (_ & Sh & V). split; [assumption|]. intros idx Hv. specialize (V idx Hv). unfold cell_op in V.
  destruct (masked (at_ (elems a) idx)) eqn:M; [congruence|]. destruct (elem_op _ _ _ _); cbn [rbind] in V; [|discriminate]. injection V as <-. reflexivity.
Qed.
Lemma mul_add_mask a s o r : mul_add a s o = Ok r -> same_mask a r.
Proof.
  unfold mul_add. destruct (array_op OMul s a) as [m|] eqn:E; cbn [rbind]; [|discriminate]. intros H.
  apply (same_mask_trans a m); [now apply array_op_mask in E|now apply array_op_mask in H].
Qed.
Lemma astype_mask d a : same_mask a (astype d a). Proof. split; reflexivity. Qed.
Lemma scale_array_mask block a fd s o r : says block $"SCALING_FACTOR" 1 s -> says block $"OFFSET" 0 o ->
  scale_array block a false fd = Ok r -> same_mask a r.
Proof.
  intros Hs Ho. unfold scale_array. rewrite (says_factor _ _ _ _ Hs), (says_factor _ _ _ _ Ho). cbn [rbind andb].
  destruct (factor_is _ _ && _); [intros [= <-]; now split|].
  set (a' := if casting_to_float _ _ _ then _ else _).
  assert (M : same_mask a a') by (unfold a'; destruct (casting_to_float _ _ _); [destruct fd; [apply astype_mask|now split]|now split]).
  clearbody a'. unfold overflow_wrap. rewrite copy_scale_num. destruct (mul_add a' s o) as [x|e] eqn:E.
  - intros [= <-]. apply (same_mask_trans a a'); [assumption|]. now apply mul_add_mask in E.
  - destruct e; try discriminate. unfold fit_to_scale.
    assert (G : forall t, copy_scale (astype t a') (FNum o) (FNum s) = Ok r -> same_mask a r).
    { intros t. rewrite copy_scale_num. intros H. apply mul_add_mask in H. apply (same_mask_trans a a'); [assumption|].
      apply (same_mask_trans a' (astype t a')); [apply astype_mask|assumption]. }
    destruct (dtype a'); cbn [rbind]; try discriminate;
      (destruct (fold_num qmin _); cbn [rbind]; [|discriminate]; destruct (fold_num qmax _); cbn [rbind]; [|discriminate];
       destruct (choose_type _ _ _ _ _) as [t|]; cbn [rbind]; [apply G|discriminate]).
Qed.
