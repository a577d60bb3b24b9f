(** Properties C37 and C38: browse images. *)
From Coq Require Import QArith Qabs Qminmax Qround Lqa Lia ZArith.
From Verif.Base Require Import Py Val Numpy Float FloatMore.
From Verif.Model Require Import Scaling Browse.
From Verif.Spec Require Import Scaling Browse.
From Verif.Proofs Require Import Scaling Browse.
Open Scope Z_scope.

(** * C37: brightness *)
Lemma upcast_facts p : pdt (upcast p) = widened (pdt p) /\ cells (upcast p) = cells p /\ is_ma (upcast p) = is_ma p /\ shown_values (upcast p) = shown_values p.
Proof. unfold upcast, widened. destruct (pdt p) as [s b| |] eqn:E; [destruct (b <=? 2)|..]; repeat split; try reflexivity; exact E. Qed.
Lemma holds_widened d q : proper_type d -> holds d q -> holds (widened d) q.
Proof.
  intros P H. destruct d as [s b| |]; [|exact H|exact H]. cbn [widened]. destruct (b <=? 2) eqn:E; [|exact H]. destruct H as (z & Ez & Hz). exists z. split; [exact Ez|].
  cbn in P. unfold numpy_int in P. apply Z.leb_le in E. assert (b = 1 \/ b = 2) as [->| ->] by lia; destruct s; cbn in *; lia.
Qed.
Lemma upcast_proper p : proper_picture p -> proper_picture (upcast p).
Proof.
  intros [P H]. destruct (upcast_facts p) as (Ed & Ec & _ & _). split.
  - rewrite Ed. destruct (pdt p) as [s b| |]; [|exact I|exact I]. cbn [widened]. destruct (b <=? 2); [cbn; unfold numpy_int; lia|exact P].
  - rewrite Ec. intros idx V M. destruct (H idx V M) as (q & E & Hq). exists q. split; [exact E|]. rewrite Ed. now apply holds_widened.
Qed.
Lemma wide_type p s b : proper_picture p -> pdt (upcast p) = DInt s b -> b = 4 \/ b = 8.
Proof.
  intros [P _] E. destruct (upcast_facts p) as (Ed & _). rewrite Ed in E. destruct (pdt p) as [s' b'| |]; [|discriminate|discriminate]. cbn [widened] in E.
  cbn in P. unfold numpy_int in P. destruct (b' <=? 2) eqn:L; injection E as <- <-; [now left|]. apply Z.leb_gt in L. lia.
Qed.

(** The limits: numbers between the least and the greatest value shown; exactly those without
    clipping; with clipping, at most the given percentage of the values (plus one) is darker
    than the lower limit, and as many are brighter than the upper one. *)
Theorem C37_limits p c1 c2 : proper_picture p -> shown_values p <> [] -> (0 <= c1)%Q -> (0 <= c2)%Q -> (c1 + c2 <= 100)%Q ->
  let n := inject_Z (Z.of_nat (List.length (shown_values p))) in
  exists lo hi, find_bounds (upcast p) (c1, c2) = Ok (Some (lo, hi)) /\ (lo <= hi)%Q /\
    holds (widened (pdt p)) lo /\ holds (widened (pdt p)) hi /\
    (exists v, In v (shown_values p) /\ (v <= lo)%Q) /\ (exists v, In v (shown_values p) /\ (hi <= v)%Q) /\
    ((c1 == 0)%Q -> forall v, In v (shown_values p) -> (lo <= v)%Q) /\
    ((c2 == 0)%Q -> forall v, In v (shown_values p) -> (v <= hi)%Q) /\
    (inject_Z (count (fun v => below lo v) (shown_values p)) <= c1 / 100 * (n - 1) + 1)%Q /\
    (inject_Z (count (fun v => below v hi) (shown_values p)) <= c2 / 100 * (n - 1) + 1)%Q.
Proof.
  intros Pp0 N0 B1 B2 B3. pose proof (upcast_proper p Pp0) as Pp. destruct (upcast_facts p) as (Ed & _ & _ & Es). rewrite <- Es in N0 |- *. rewrite <- Ed.
  clear Ed Es Pp0. revert Pp N0. generalize (upcast p). clear p. intros p Pp N. cbv zeta.
  destruct (bounds_ranked p c1 c2 Pp N B1 B2 B3) as (lo & hi & E & El & Eh). exists lo, hi. split; [exact E|].
  destruct (ranked_facts p c1 Pp N ltac:(lra)) as (A1 & (v1 & A2 & A3) & _ & A4 & _).
  destruct (ranked_facts p (100 - c2) Pp N ltac:(lra)) as (D1 & _ & (v2 & D2 & D3) & _ & D4).
  split; [rewrite El, Eh; apply ranked_mono; auto; lra|]. split; [apply (holds_eq _ (ranked p c1)); [now symmetry|exact A1]|].
  split; [apply (holds_eq _ (ranked p (100 - c2))); [now symmetry|exact D1]|].
  split; [exists v1; rewrite El; auto|]. split; [exists v2; rewrite Eh; auto|].
  split; [|split; [|split]].
  - intros Z0 v Hv. unfold find_bounds in E. rewrite (proj1 (valid_shown p Pp)) in E. cbn [rbind] in E. cbn [fst snd] in E.
    apply Qeq_bool_iff in Z0. rewrite Z0 in E. pose proof (sort_sorted (shown_values p)) as Ss. apply (Permutation.Permutation_in _ (sort_perm _)) in Hv.
    destruct (sort_q (shown_values p)) as [|least s]; [destruct Hv|]. cbn [rbind] in E.
    assert (lo = least) by (destruct (if Qeq_bool c2 0 then _ else _); [injection E as -> _; reflexivity|discriminate]). subst.
    inversion Ss as [|x l _ Hf]; subst. destruct Hv as [<-|Hv]; [apply Qle_refl|]. rewrite Forall_forall in Hf. now apply Hf.
  - intros Z0 v Hv. unfold find_bounds in E. rewrite (proj1 (valid_shown p Pp)) in E. cbn [rbind] in E. cbn [fst snd] in E.
    apply Qeq_bool_iff in Z0. rewrite Z0 in E. pose proof (sort_sorted (shown_values p)) as Ss. apply (Permutation.Permutation_in _ (sort_perm _)) in Hv.
    destruct (sort_q (shown_values p)) as [|least s] eqn:Eq; [destruct Hv|]. rewrite <- Eq in *.
    assert (hi = last (sort_q (shown_values p)) least) by (destruct (if Qeq_bool c1 0 then _ else _); [injection E as _ ->; reflexivity|discriminate]). subst.
    clear -Ss Hv. revert v Hv. induction Ss as [|x l S IH Hf]; intros v Hv; [destruct Hv|]. rewrite Forall_forall in Hf.
    destruct l as [|y l]; [destruct Hv as [<-|[]]; apply Qle_refl|]. change (last (x :: y :: l) least) with (last (y :: l) least).
    destruct Hv as [<-|Hv]; [|now apply IH]. apply Qle_trans with y; [apply Hf; now left|apply IH; now left].
  - assert (C : count (fun v => below lo v) (shown_values p) = count (fun v => below (ranked p c1) v) (shown_values p)).
    { unfold count. do 2 f_equal. apply filter_ext. intros v. unfold below. f_equal. apply eq_iff_eq_true. rewrite !Qle_bool_iff. now rewrite El. }
    rewrite C. exact A4.
  - assert (C : count (fun v => below v hi) (shown_values p) = count (fun v => below v (ranked p (100 - c2))) (shown_values p)).
    { unfold count. do 2 f_equal. apply filter_ext. intros v. unfold below. f_equal. apply eq_iff_eq_true. rewrite !Qle_bool_iff. now rewrite Eh. }
    rewrite C. setoid_replace (c2 / 100)%Q with ((100 - (100 - c2)) / 100)%Q by field. exact D4.
Qed.
Print Assumptions C37_limits.

(** what is shown of an element that is not masked *)
Lemma shown_byte p clip purge nice color out idx k : render p clip purge nice color = Ok out -> valid (shape (cells p)) idx -> masked (at_ (cells p) idx) = false -> (k < 3)%nat ->
  exists e, eightbit (upcast p) clip purge nice = Ok e /\ shown p color out idx k = e idx.
Proof.
  intros R V M K. unfold render in R. destruct (eightbit (upcast p) clip purge nice) as [e|x] eqn:E; [|discriminate]. cbn [rbind] in R.
  exists e. split; [reflexivity|]. destruct (upcast_facts p) as (_ & Ec & Em & _). rewrite Ec, Em in R. unfold shown.
  destruct (is_ma p); [|injection R as <-; reflexivity].
  destruct color as [|g|r g b].
  - injection R as <-. cbn [at_]. now rewrite M.
  - injection R as <-. cbn [at_]. now rewrite M.
  - destruct (shape (cells p)) as [|h [|w [|d [|]]]] eqn:Sh; try discriminate.
    + injection R as <-. cbn [at_]. inversion V as [|y h' ? ? _ V1]; subst. inversion V1 as [|x w' ? ? _ V2]; subst. inversion V2; subst.
      cbn [app]. now rewrite M.
    + destruct d as [|[|[|[|]]]]; try discriminate. injection R as <-. cbn [at_]. inversion V as [|y h' ? ? _ V1]; subst. inversion V1 as [|x w' ? ? _ V2]; subst.
      inversion V2 as [|z d' ? ? _ V3]; subst. inversion V3; subst. now rewrite M.
    + now destruct d as [|[|[|[|]]]].
Qed.
Lemma eightbit_at p clip purge nice e idx q lo hi : eightbit (upcast p) clip purge nice = Ok e -> find_bounds (upcast p) clip = Ok (Some (lo, hi)) -> (lo < hi)%Q ->
  val (at_ (cells p) idx) = Fin q -> e idx = option_map byte_of (rescale (widened (pdt p)) purge lo hi q).
Proof.
  intros E B L Q. unfold eightbit in E. rewrite B in E. cbn [rbind] in E. injection E as <-. destruct (upcast_facts p) as (Ed & Ec & _). rewrite Ec, Ed, Q.
  cbn [normalize]. replace (nice && Qeq_bool lo hi) with false; [reflexivity|]. symmetry. apply andb_false_intro2. apply not_true_iff_false. rewrite Qeq_bool_iff. lra.
Qed.
Lemma rescale_byte d purge lo hi q : (match d with DInt s b => b = 4 \/ b = 8 | _ => True end) -> holds d lo -> holds d hi -> holds d q -> scalable d purge lo hi ->
  exists r, rescale d purge lo hi q = Some r /\ 0 <= byte_of r <= 255 /\ near d purge (byte_of r) (shade lo hi q) /\ byte_of r = half_even r.
Proof.
  intros Hd Hl Hh Hq Sc. pose proof (shade_range lo hi q (proj1 Sc)) as Sr. destruct d as [s b| |].
  - destruct (rescale_int s b purge lo hi q Hd Hl Hh Hq Sc) as (r & E & R0 & H). exists r. split; [exact E|]. destruct purge; cbn [near].
    + destruct H as (z & -> & Hz). assert (Bz : byte_of (inject_Z z) = z).
      { unfold byte_of. rewrite half_even_Z. apply byte_id. change 0%Q with (inject_Z 0) in R0. rewrite <- Zle_Qle in R0. split; [exact R0|].
        assert (G : (inject_Z z <= inject_Z 255)%Q) by (change (inject_Z 255) with 255%Q; lra). now rewrite <- Zle_Qle in G. }
      split; [apply byte_range|]. rewrite Bz. split; [exact Hz|now rewrite half_even_Z].
    + destruct (byte_near _ _ Sr H) as (A & B & C). auto.
  - destruct (rescale_float DF32 purge lo hi q I Hl Hh Hq Sc) as (r & E & R0 & H). exists r. split; [exact E|]. destruct (byte_near _ _ Sr H) as (A & B & C). cbn [near]. auto.
  - destruct (rescale_float DF64 purge lo hi q I Hl Hh Hq Sc) as (r & E & R0 & H). exists r. split; [exact E|]. destruct (byte_near _ _ Sr H) as (A & B & C). cbn [near]. auto.
Qed.
(** Between limits whose distance the type can deal with, every element that is not masked is
    shown as a byte near the exact linear shade, in every channel. *)
Theorem C37_shades p clip purge nice color out lo hi idx q : proper_picture p ->
  render p clip purge nice color = Ok out -> find_bounds (upcast p) clip = Ok (Some (lo, hi)) ->
  holds (widened (pdt p)) lo -> holds (widened (pdt p)) hi -> scalable (widened (pdt p)) purge lo hi ->
  valid (shape (cells p)) idx -> masked (at_ (cells p) idx) = false -> val (at_ (cells p) idx) = Fin q ->
  exists b, 0 <= b <= 255 /\ near (widened (pdt p)) purge b (shade lo hi q) /\ forall k, (k < 3)%nat -> shown p color out idx k = Some b.
Proof.
  intros Pp R Fb Hl Hh Sc V M Q.
  assert (Hq : holds (widened (pdt p)) q) by (destruct (proj2 Pp idx V M) as (q' & Eq & Hq); rewrite Q in Eq; injection Eq as <-; apply holds_widened; [apply Pp|exact Hq]).
  assert (Wd : match widened (pdt p) with DInt s b => b = 4 \/ b = 8 | _ => True end).
  { destruct (widened (pdt p)) as [s b| |] eqn:Ew; auto. apply (wide_type p s b Pp). now rewrite (proj1 (upcast_facts p)). }
  destruct (rescale_byte _ purge lo hi q Wd Hl Hh Hq Sc) as (r & E & B1 & B2 & _). exists (byte_of r). split; [exact B1|]. split; [exact B2|].
  intros k K. destruct (shown_byte _ _ _ _ _ _ _ k R V M K) as (e & Ee & ->). rewrite (eightbit_at _ _ _ _ _ _ _ _ _ Ee Fb (proj1 Sc) Q), E. reflexivity.
Qed.
Print Assumptions C37_shades.
(** so nothing below the lower limit is not black, nothing above the upper one not white *)
Theorem C37_black_white p clip purge nice color out lo hi idx q k : proper_picture p ->
  render p clip purge nice color = Ok out -> find_bounds (upcast p) clip = Ok (Some (lo, hi)) ->
  holds (widened (pdt p)) lo -> holds (widened (pdt p)) hi -> scalable (widened (pdt p)) purge lo hi ->
  valid (shape (cells p)) idx -> masked (at_ (cells p) idx) = false -> val (at_ (cells p) idx) = Fin q -> (k < 3)%nat ->
  ((q <= lo)%Q -> shown p color out idx k = Some 0) /\ ((hi <= q)%Q -> shown p color out idx k = Some 255).
Proof.
  intros Pp R Fb Hl Hh Sc V M Q K. destruct (C37_shades _ _ _ _ _ _ _ _ _ _ Pp R Fb Hl Hh Sc V M Q) as (b & B1 & B2 & B3). rewrite (B3 k K). pose proof (proj1 Sc) as L.
  assert (Near : forall z, (shade lo hi q == inject_Z z)%Q -> b = z).
  { intros z E. unfold near in B2. assert (G : (inject_Z (z - 1) < inject_Z b < inject_Z (z + 1))%Q).
    { unfold Z.sub. rewrite !inject_Z_plus. change (inject_Z (- (1))) with (-1)%Q. change (inject_Z 1) with 1%Q.
      assert (Ab : (Qabs (inject_Z b - shade lo hi q) <= (1 # 2) + (1 # 4096))%Q -> (inject_Z z + -1 < inject_Z b < inject_Z z + 1)%Q)
        by (intros A; apply Qabs_Qle_condition in A; rewrite E in A; split; lra).
      destruct (widened (pdt p)); [destruct purge|..]; [rewrite E in B2; lra|now apply Ab|now apply Ab|now apply Ab]. }
    rewrite <- !Zlt_Qlt in G. lia. }
  split; intros H; f_equal; apply Near; rewrite (shade_eq lo hi q L); unfold clip_q.
  - destruct (Qle_bool lo q) eqn:E1.
    + apply Qle_bool_iff in E1. assert (Eq : (q == lo)%Q) by lra. destruct (Qle_bool q hi) eqn:E2; [|apply Qle_bool_false in E2; lra].
      rewrite Eq. change (inject_Z 0) with 0%Q. field. lra.
    + replace (Qle_bool lo hi) with true by (symmetry; apply Qle_bool_iff; lra). change (inject_Z 0) with 0%Q. field. lra.
  - replace (Qle_bool lo q) with true by (symmetry; apply Qle_bool_iff; lra). destruct (Qle_bool q hi) eqn:E2.
    + apply Qle_bool_iff in E2. assert (Eq : (q == hi)%Q) by lra. rewrite Eq. change (inject_Z 255) with 255%Q. field. lra.
    + change (inject_Z 255) with 255%Q. field. lra.
Qed.
Print Assumptions C37_black_white.
(** a greater value is never shown darker *)
Theorem C37_order p clip purge nice color out lo hi idx idx' q q' k : proper_picture p ->
  render p clip purge nice color = Ok out -> find_bounds (upcast p) clip = Ok (Some (lo, hi)) ->
  holds (widened (pdt p)) lo -> holds (widened (pdt p)) hi -> scalable (widened (pdt p)) purge lo hi ->
  valid (shape (cells p)) idx -> masked (at_ (cells p) idx) = false -> val (at_ (cells p) idx) = Fin q ->
  valid (shape (cells p)) idx' -> masked (at_ (cells p) idx') = false -> val (at_ (cells p) idx') = Fin q' -> (k < 3)%nat ->
  (q <= q')%Q -> exists b b', shown p color out idx k = Some b /\ shown p color out idx' k = Some b' /\ b <= b'.
Proof.
  intros Pp R Fb Hl Hh Sc V M Q V' M' Q' K L.
  assert (Hq : holds (widened (pdt p)) q) by (destruct (proj2 Pp idx V M) as (x & Eq & Hq); rewrite Q in Eq; injection Eq as <-; apply holds_widened; [apply Pp|exact Hq]).
  assert (Hq' : holds (widened (pdt p)) q') by (destruct (proj2 Pp idx' V' M') as (x & Eq & Hq'); rewrite Q' in Eq; injection Eq as <-; apply holds_widened; [apply Pp|exact Hq']).
  assert (Wd : match widened (pdt p) with DInt s b => b = 4 \/ b = 8 | _ => True end).
  { destruct (widened (pdt p)) as [s b| |] eqn:Ew; auto. apply (wide_type p s b Pp). now rewrite (proj1 (upcast_facts p)). }
  destruct (rescale_byte _ purge lo hi q Wd Hl Hh Hq Sc) as (r & E & _ & _ & B). destruct (rescale_byte _ purge lo hi q' Wd Hl Hh Hq' Sc) as (r' & E' & _ & _ & B').
  exists (byte_of r), (byte_of r'). destruct (shown_byte _ _ _ _ _ _ _ k R V M K) as (e & Ee & ->). destruct (shown_byte _ _ _ _ _ _ _ k R V' M' K) as (e' & Ee' & ->).
  rewrite Ee in Ee'. injection Ee' as <-.
  rewrite (eightbit_at _ _ _ _ _ _ _ _ _ Ee Fb (proj1 Sc) Q), E. rewrite (eightbit_at _ _ _ _ _ _ _ _ _ Ee Fb (proj1 Sc) Q'), E'. split; [reflexivity|]. split; [reflexivity|].
  rewrite B, B'. apply half_even_mono. eapply (rescale_mono (widened (pdt p)) purge lo hi q q'); eauto; [apply Sc|]. destruct (widened (pdt p)); auto.
Qed.
Print Assumptions C37_order.
(** 8- and 16-bit integers: limits that differ are always such limits *)
Theorem C37_small_integers p purge lo hi s b : proper_picture p -> pdt p = DInt s b -> b <= 2 ->
  (exists v, In v (shown_values p) /\ (v <= lo)%Q) -> (exists v, In v (shown_values p) /\ (hi <= v)%Q) ->
  (lo < hi)%Q -> scalable (widened (pdt p)) purge lo hi.
Proof.
  intros Pp Ed Lb (v & Iv & Lv) (w & Iw & Lw) L. split; [exact L|]. cbv zeta. rewrite Ed. cbn [widened]. replace (b <=? 2) with true by (symmetry; now apply Z.leb_le).
  destruct (valid_shown p Pp) as [_ F]. rewrite Forall_forall in F. apply F in Iv, Iw. rewrite Ed in Iv, Iw.
  destruct Iv as (zv & Ev & Hv), Iw as (zw & Ew & Hw). assert (B : zw - zv <= 65535).
  { destruct Pp as [Pt _]. rewrite Ed in Pt. cbn in Pt. unfold numpy_int in Pt. assert (b = 1 \/ b = 2) as [->| ->] by lia; destruct s; cbn in Hv, Hw; lia. }
  rewrite Zle_Qle in B. unfold Z.sub in B. rewrite inject_Z_plus, inject_Z_opp in B. change (inject_Z 65535) with 65535%Q in B.
  change (inject_Z (2 ^ (8 * 4 - 1))) with 2147483648%Q. destruct purge; lra.
Qed.
Print Assumptions C37_small_integers.

(** masked elements of an image have the mask colour *)
Theorem C37_masked p clip purge nice r g b out y x h w k : is_ma p = true -> shape (cells p) = [h; w] ->
  render p clip purge nice (FillColor r g b) = Ok out -> masked (at_ (cells p) [y; x]) = true -> (k < 3)%nat ->
  shape out = [h; w; 3%nat] /\ at_ out [y; x; k] = Some (nth k [r; g; b] 0).
Proof.
  intros Im Sh R M K. unfold render in R. destruct (eightbit _ _ _ _) as [e|]; [|discriminate]. cbn [rbind] in R.
  destruct (upcast_facts p) as (_ & Ec & Em & _). rewrite Ec, Em, Im, Sh in R. injection R as <-. cbn [at_ shape]. split; [reflexivity|]. now rewrite M.
Qed.
Print Assumptions C37_masked.
(** and what is behind the mask changes nothing *)
Definition same_but_masked (p p' : picture) : Prop :=
  pdt p' = pdt p /\ is_ma p' = is_ma p /\ shape (cells p') = shape (cells p) /\
  forall idx, valid (shape (cells p)) idx -> masked (at_ (cells p') idx) = masked (at_ (cells p) idx) /\
    (masked (at_ (cells p) idx) = false -> val (at_ (cells p') idx) = val (at_ (cells p) idx)).
Lemma same_bounds p p' clip : same_but_masked p p' -> find_bounds (upcast p') clip = find_bounds (upcast p) clip.
Proof.
  intros (Ed & Em & Es & H). destruct (upcast_facts p) as (Ud & Uc & Um & _). destruct (upcast_facts p') as (Ud' & Uc' & Um' & _).
  unfold find_bounds, valid_values. rewrite Um, Um', Ud, Ud', Uc, Uc', Ed, Em.
  assert (E : filter (fun c => negb (masked c)) (ravel (cells p')) = filter (fun c => negb (masked c)) (ravel (cells p))).
  { unfold ravel, size. rewrite Es. assert (G : forall l, (forall k, In k l -> (k < prod (shape (cells p)))%nat) ->
      filter (fun c => negb (masked c)) (map (fun k => at_ (cells p') (unlin (shape (cells p)) k)) l) =
      filter (fun c => negb (masked c)) (map (fun k => at_ (cells p) (unlin (shape (cells p)) k)) l)).
    { induction l as [|k l IH]; intros Hl; [reflexivity|]. cbn [map filter]. rewrite IH by (intros j Hj; apply Hl; now right).
      destruct (H _ (unlin_valid _ _ (Hl k (or_introl eq_refl)))) as (H1 & H2). rewrite H1.
      destruct (masked (at_ (cells p) (unlin (shape (cells p)) k))) eqn:M; [reflexivity|]. cbn [negb]. f_equal.
      destruct (at_ (cells p') _) as [v m] eqn:E1, (at_ (cells p) _) as [v' m'] eqn:E2. cbn in *. subst. now rewrite (H2 eq_refl). }
    apply G. intros k Hk. apply in_seq in Hk. lia. }
  now rewrite E.
Qed.
Theorem C37_hidden p p' clip purge nice color out : same_but_masked p p' -> is_ma p = true ->
  render p clip purge nice color = Ok out ->
  exists out', render p' clip purge nice color = Ok out' /\ shape out' = shape out /\
    forall idx k, valid (shape (cells p)) idx -> (k < 3)%nat -> shown p' color out' idx k = shown p color out idx k.
Proof.
  intros Sm Im R. pose proof (same_bounds p p' clip Sm) as B. destruct Sm as (Ed & Em & Es & H).
  destruct (upcast_facts p) as (Ud & Uc & Um & _). destruct (upcast_facts p') as (Ud' & Uc' & Um' & _).
  unfold render, eightbit in *. rewrite B. rewrite Um', Uc', Em, Es, Ud', Ed. rewrite Um, Uc, Ud in R.
  destruct (find_bounds (upcast p) clip) as [bo|]; [|discriminate]. cbn [rbind] in *.
  assert (C : forall c idx, valid (shape (cells p)) idx ->
    (if masked (at_ (cells p') idx) then c else match val (at_ (cells p') idx) with Fin q => option_map byte_of (normalize (widened (pdt p)) purge nice bo q) | _ => None end) =
    (if masked (at_ (cells p) idx) then c else match val (at_ (cells p) idx) with Fin q => option_map byte_of (normalize (widened (pdt p)) purge nice bo q) | _ => None end)).
  { intros c idx V. destruct (H idx V) as (H1 & H2). rewrite H1. destruct (masked (at_ (cells p) idx)); [reflexivity|]. now rewrite H2. }
  unfold shown. rewrite Em, Es, Im in *. destruct color as [|g|r g b].
  - injection R as <-. eexists. split; [reflexivity|]. split; [reflexivity|]. intros idx k V K. cbn [at_]. now apply C.
  - injection R as <-. eexists. split; [reflexivity|]. split; [reflexivity|]. intros idx k V K. cbn [at_]. now apply C.
  - destruct (shape (cells p)) as [|h [|w [|d [|]]]] eqn:Sh; try discriminate.
    + injection R as <-. eexists. split; [reflexivity|]. split; [reflexivity|]. intros idx k V K. cbn [at_]. inversion V as [|y h' ? ? Y V1]; subst.
      inversion V1 as [|x w' ? ? X V2]; subst. inversion V2; subst. cbn [app]. now apply C.
    + destruct d as [|[|[|[|]]]]; try discriminate. injection R as <-. eexists. split; [reflexivity|]. split; [reflexivity|]. intros idx k V K. cbn [at_].
      inversion V as [|y h' ? ? Y V1]; subst. inversion V1 as [|x w' ? ? X V2]; subst. inversion V2 as [|z d' ? ? Z0 V3]; subst. inversion V3; subst. now apply C.
    + now destruct d as [|[|[|[|]]]].
Qed.
Print Assumptions C37_hidden.
(** default clipping that leaves one value only: the values themselves are the bytes, if they
    are integers from 0 to 255 *)
Theorem C37_constant p clip purge color out lo hi idx q z k : proper_picture p ->
  render p clip purge true color = Ok out -> find_bounds (upcast p) clip = Ok (Some (lo, hi)) -> (lo == hi)%Q ->
  valid (shape (cells p)) idx -> masked (at_ (cells p) idx) = false -> val (at_ (cells p) idx) = Fin q -> (q == inject_Z z)%Q -> 0 <= z <= 255 -> (k < 3)%nat ->
  shown p color out idx k = Some z.
Proof.
  intros Pp R Fb E V M Q Ez Hz K. destruct (shown_byte _ _ _ _ _ _ _ k R V M K) as (e & Ee & ->). unfold eightbit in Ee. rewrite Fb in Ee. cbn [rbind] in Ee. injection Ee as <-.
  rewrite (proj1 (proj2 (upcast_facts p))), Q. cbn [normalize]. apply Qeq_bool_iff in E. rewrite E. cbn [andb option_map]. f_equal. unfold byte_of. rewrite Ez, half_even_Z. now apply byte_id.
Qed.
Print Assumptions C37_constant.

(** ** Cases *)
Definition flat (d : dt) (ma : bool) (l : list (Z * bool)) : picture :=
  mkPic d ma (mkArr [1%nat; List.length l] (fun idx => match idx with
    | [_; i] => let '(z, m) := nth i l (0, false) in mkCell (Fin (inject_Z z)) m | _ => mkCell NaN true end)).
Lemma flat_proper d ma l : proper_type d -> Forall (fun zm => snd zm = false -> holds d (inject_Z (fst zm))) l -> proper_picture (flat d ma l).
Proof.
  intros P H. split; [exact P|]. intros idx V. cbn [flat cells shape] in V. inversion V as [|a b x y La V1]; subst. inversion V1 as [|i n x' y' Li V2]; subst. inversion V2; subst.
  cbn [flat cells at_]. rewrite Forall_forall in H. pose proof (H (nth i l (0, false)) (nth_In _ _ Li)) as G. destruct (nth i l (0, false)) as [z m]. cbn [masked val fst snd] in *.
  intros M. exists (inject_Z z). auto.
Qed.
Definition p16 : picture := flat (DInt false 2) true [(0, false); (1000, false); (65535, true); (500, false); (250, false)].
Example C37_meets : proper_picture p16 /\ shown_values p16 = [0; 1000; 500; 250]%Q /\ find_bounds (upcast p16) (0, 0)%Q = Ok (Some (0, 1000)%Q) /\
  scalable (widened (pdt p16)) false 0 1000 /\ scalable (widened (pdt p16)) true 0 1000 /\
  (exists out, render p16 (0, 0)%Q false false (FillColor 0 255 255) = Ok out /\
     map (fun i => at_ out [0; i; 0]%nat) (seq 0 5) = [Some 0; Some 255; Some 0; Some 128; Some 64] /\
     map (fun i => at_ out [0; i; 1]%nat) (seq 0 5) = [Some 0; Some 255; Some 255; Some 128; Some 64]).
Proof.
  split; [apply flat_proper; [right; now left|]; repeat (apply Forall_cons; [cbn [fst snd]; first [discriminate|intros _; eexists; split; [reflexivity|cbn; lia]]|]); apply Forall_nil|].
  split; [reflexivity|]. split; [vm_compute; reflexivity|]. split; [split; vm_compute; reflexivity|]. split; [split; vm_compute; reflexivity|].
  eexists. split; [reflexivity|]. split; vm_compute; reflexivity.
Qed.
Example C37_float_meets : scalable DF32 false (-1) 1 /\ scalable DF64 true 0 100000 /\ holds DF32 (-1) /\ holds DF32 1.
Proof.
  split; [repeat split; vm_compute; (reflexivity || discriminate)|]. split; [repeat split; vm_compute; (reflexivity || discriminate)|].
  split; (split; [|vm_compute; discriminate]); [exists (-1), 0|exists 1, 0]; repeat split; vm_compute; (reflexivity || discriminate).
Qed.
Definition p16' : picture := flat (DInt false 2) true [(0, false); (1000, false); (7, true); (500, false); (250, false)].
Example C37_hidden_meets : same_but_masked p16 p16'.
Proof.
  split; [reflexivity|]. split; [reflexivity|]. split; [reflexivity|]. intros idx V. inversion V as [|a b x y La V1]; subst. inversion V1 as [|i n x' y' Li V2]; subst. inversion V2; subst.
  destruct i as [|[|[|[|[|i]]]]]; try (split; [reflexivity|]; (reflexivity || discriminate)).
Qed.

(** ** Where the claims fail *)
(** Wide 32-bit integers: the difference of the limits wraps around, and the scaled values
    are not between 0 and 255. *)
Theorem C37_wide_refuted : exists p lo hi r, proper_picture p /\ find_bounds (upcast p) (0, 0)%Q = Ok (Some (lo, hi)) /\ (lo < 0 < hi)%Q /\ In 0%Q (shown_values p) /\
  normalize (pdt p) false false (Some (lo, hi)) 0 = Some r /\ (255 < r)%Q.
Proof.
  exists (flat (DInt true 4) false [(-2147483648, false); (2147483647, false); (0, false)]). do 3 eexists.
  split; [apply flat_proper; [cbn; unfold numpy_int; lia|]; repeat (apply Forall_cons; [cbn [fst snd]; intros _; eexists; split; [reflexivity|cbn; lia]|]); apply Forall_nil|].
  split; [vm_compute; reflexivity|]. split; [split; reflexivity|]. split; [right; right; now left|]. split; vm_compute; reflexivity.
Qed.
Print Assumptions C37_wide_refuted.
(** With purge, 32-bit integers wrap around already when multiplied by 255: the brightest
    element is shown darker than one half as bright. *)
Theorem C37_purge_wraps_refuted : exists p out, proper_picture p /\ shown_values p = [0; 10000000; 5000000]%Q /\
  render p (0, 0)%Q true false FillNone = Ok out /\ at_ out [0%nat; 1%nat] = Some 81 /\ at_ out [0%nat; 2%nat] = Some 127.
Proof.
  exists (flat (DInt true 4) false [(0, false); (10000000, false); (5000000, false)]). eexists.
  split; [apply flat_proper; [cbn; unfold numpy_int; lia|]; repeat (apply Forall_cons; [cbn [fst snd]; intros _; eexists; split; [reflexivity|cbn; lia]|]); apply Forall_nil|].
  split; [reflexivity|]. split; [reflexivity|]. split; vm_compute; reflexivity.
Qed.
Print Assumptions C37_purge_wraps_refuted.
(** purge also changes what is shown: shades are rounded down instead of to nearest *)
Theorem C37_purge_differs_refuted : exists p out out', proper_picture p /\
  render p (0, 0)%Q false false FillNone = Ok out /\ render p (0, 0)%Q true false FillNone = Ok out' /\ at_ out [0%nat; 2%nat] = Some 128 /\ at_ out' [0%nat; 2%nat] = Some 127.
Proof.
  exists (flat (DInt false 1) false [(0, false); (2, false); (1, false)]). do 2 eexists.
  split; [apply flat_proper; [now left|]; repeat (apply Forall_cons; [cbn [fst snd]; intros _; eexists; split; [reflexivity|cbn; lia]|]); apply Forall_nil|].
  split; [reflexivity|]. split; [reflexivity|]. split; vm_compute; reflexivity.
Qed.
Print Assumptions C37_purge_differs_refuted.
(** Default clipping that leaves one value: values above 255 wrap around; here all elements
    are 256 but one, which is darker (255), and is shown white on black. *)
Theorem C37_nice_clip_refuted : exists p out, proper_picture p /\ In 255%Q (shown_values p) /\
  Forall (fun v => (v == 255 \/ v == 256)%Q) (shown_values p) /\
  render p (fst (browse_clip None)) false (snd (browse_clip None)) FillNone = Ok out /\ at_ out [0%nat; 0%nat] = Some 255 /\ at_ out [0%nat; 1%nat] = Some 0.
Proof.
  exists (flat (DInt false 2) false ((255, false) :: repeat (256, false) 100)). eexists.
  split; [apply flat_proper; [right; now left|]; constructor; [intros _; exists 255; split; [reflexivity|cbn; lia]|];
    apply Forall_forall; intros x Hx; apply repeat_spec in Hx as ->; intros _; exists 256; split; [reflexivity|cbn; lia]|].
  split; [left; reflexivity|]. split.
  - apply Forall_forall. intros v Hv. assert (G : forallb (fun v => Qeq_bool v 255 || Qeq_bool v 256) (shown_values (flat (DInt false 2) false ((255, false) :: repeat (256, false) 100))) = true) by (vm_compute; reflexivity).
    rewrite forallb_forall in G. specialize (G v Hv). apply orb_true_iff in G. rewrite !Qeq_bool_iff in G. exact G.
  - split; [unfold render; cbv zeta; unfold eightbit; replace (find_bounds _ _) with (@Ok (option (Q * Q)) (Some (256, 256)%Q)) by (vm_compute; reflexivity); reflexivity|]. split; vm_compute; reflexivity.
Qed.
Print Assumptions C37_nice_clip_refuted.

(** * C38: bands *)
Lemma middle_is n : (0 < n)%nat -> exists j, middle_ix n = Z.of_nat j /\ is_middle n j.
Proof.
  intros P. unfold middle_ix. set (k := (n / 2)%nat).
  assert (F : Qround.Qfloor (Z.of_nat n # 2) = Z.of_nat k).
  { unfold Qround.Qfloor, k. rewrite Nat2Z.inj_div. reflexivity. }
  pose proof (Nat.div_mod n 2 ltac:(lia)) as D. fold k in D. pose proof (Nat.mod_upper_bound n 2 ltac:(lia)) as U.
  assert (Dq : ((Z.of_nat n # 2) - inject_Z (Z.of_nat k) == inject_Z (Z.of_nat (n mod 2)) / 2)%Q).
  { unfold Qeq, Qminus, Qplus, Qopp, Qdiv, Qmult, Qinv, inject_Z; cbn [Qnum Qden]. nia. }
  unfold half_even. rewrite F. destruct (n mod 2)%nat as [|[|r]] eqn:E; [| |lia].
  - replace (((Z.of_nat n # 2) - inject_Z (Z.of_nat k)) ?= 1 # 2)%Q with Lt by (symmetry; rewrite Dq; reflexivity).
    exists k. split; [reflexivity|]. split; [lia|]. left. lia.
  - replace (((Z.of_nat n # 2) - inject_Z (Z.of_nat k)) ?= 1 # 2)%Q with Eq by (symmetry; rewrite Dq; reflexivity).
    replace (Z.even (Z.of_nat k)) with (Nat.even k).
    2:{ destruct (Nat.even k) eqn:Ek; symmetry.
        - apply Nat.even_spec in Ek as [m ->]. apply Z.even_spec. exists (Z.of_nat m). lia.
        - rewrite <- Nat.negb_odd in Ek. apply negb_false_iff, Nat.odd_spec in Ek as [m ->]. rewrite <- Z.negb_odd. apply negb_false_iff, Z.odd_spec. exists (Z.of_nat m). lia. }
    destruct (Nat.even k) eqn:Ek.
    + exists k. split; [reflexivity|]. split; [lia|]. right. split; [lia|exact Ek].
    + assert (k <> 0)%nat by (intros ->; discriminate Ek). exists (S k). split; [lia|]. split; [lia|]. right. split; [lia|]. rewrite Nat.even_succ, <- Nat.negb_even, Ek. reflexivity.
Qed.
Lemma moved {A} (a : arr A) ax : cube a ax -> exists a', (if (ax =? 0)%nat then a else swapaxes ax a) = a' /\ hd 0%nat (shape a') = bands a ax /\
  forall j, is_band a ax j (band a' j).
Proof.
  intros [L X]. destruct a as [[|u [|v [|w [|]]]] f]; try discriminate. eexists. split; [reflexivity|].
  destruct ax as [|[|[|]]]; [| | |lia]; split; try reflexivity; intros j; split; try reflexivity.
Qed.
Lemma get_band_counted {A} (a : arr A) i j : counted (hd 0%nat (shape a)) i j -> get_band a i = Ok (band a j).
Proof.
  intros [Lj C]. unfold get_band. destruct C as [->|E].
  - destruct (Z.ltb_spec (Z.of_nat j) 0); [lia|]. destruct (Z.leb_spec 0 (Z.of_nat j)); [|lia]. destruct (Z.ltb_spec (Z.of_nat j) (Z.of_nat (hd 0%nat (shape a)))); [|lia]. cbn. now rewrite Nat2Z.id.
  - destruct (Z.ltb_spec i 0); [|lia]. rewrite E. replace (Z.of_nat j - Z.of_nat (hd 0%nat (shape a)) + Z.of_nat (hd 0%nat (shape a))) with (Z.of_nat j) by lia.
    destruct (Z.leb_spec 0 (Z.of_nat j)); [|lia]. destruct (Z.ltb_spec (Z.of_nat j) (Z.of_nat (hd 0%nat (shape a)))); [|lia]. cbn. now rewrite Nat2Z.id.
Qed.
Lemma get_band_missing {A} (a : arr A) i : (forall j, ~ counted (hd 0%nat (shape a)) i j) -> get_band a i = Err IndexError.
Proof.
  intros C. unfold get_band. set (n := Z.of_nat (hd 0%nat (shape a))). set (k := if i <? 0 then i + n else i).
  destruct ((0 <=? k) && (k <? n)) eqn:E; [exfalso|reflexivity]. apply andb_true_iff in E as [E1 E2]. apply Z.leb_le in E1. apply Z.ltb_lt in E2.
  apply (C (Z.to_nat k)). unfold n in E2. split; [lia|]. unfold k in *. destruct (Z.ltb_spec i 0); unfold n in *; lia.
Qed.
Lemma middle_band {A} (a : arr A) : (0 < hd 0%nat (shape a))%nat -> exists j, is_middle (hd 0%nat (shape a)) j /\ get_band a (middle_ix (hd 0%nat (shape a))) = Ok (band a j).
Proof. intros P. destruct (middle_is _ P) as (j & E & M). exists j. split; [exact M|]. apply get_band_counted. split; [apply M|]. left. exact E. Qed.

(** One band: the one asked for, if there is such a band (negative numbers count from the
    last), and otherwise the middle one. *)
Theorem C38_band {A} (a : arr A) ax b override : cube a ax -> (0 < bands a ax)%nat -> b <> Burst ->
  override = true \/ (bands a ax <> 3 /\ bands a ax <> 4)%nat ->
  exists img j, format_multiband a b override ax None = Ok (OneImage img) /\ is_band a ax j img /\ (j < bands a ax)%nat /\
    match b with
    | BandIx i => counted (bands a ax) i j \/ ((forall k, ~ counted (bands a ax) i k) /\ is_middle (bands a ax) j)
    | _ => is_middle (bands a ax) j
    end.
Proof.
  intros C P NB O. destruct (moved a ax C) as (a' & Ea & Eh & Hb). unfold format_multiband. cbv zeta. rewrite Ea. rewrite <- Eh in *. clear Ea Eh.
  replace (negb ((hd 0 (shape a') =? 3) || (hd 0 (shape a') =? 4)) || override)%nat with true.
  2:{ symmetry. destruct O as [->|[N3 N4]]; [apply orb_true_r|]. rewrite (proj2 (Nat.eqb_neq _ _) N3), (proj2 (Nat.eqb_neq _ _) N4). reflexivity. }
  destruct (middle_band a' P) as (m & M & Em). destruct b as [|i|]; [| |now elim NB].
  - exists (band a' m), m. cbn [single_band]. rewrite Em. cbn [rbind]. split; [reflexivity|]. split; [apply Hb|]. split; [apply M|exact M].
  - cbn [single_band]. destruct (get_band a' i) as [x|e] eqn:E.
    + assert (exists j, counted (hd 0%nat (shape a')) i j) as [j Cj].
      { unfold get_band in E. set (n := hd 0%nat (shape a')) in *. destruct ((0 <=? (if i <? 0 then i + Z.of_nat n else i)) && ((if i <? 0 then i + Z.of_nat n else i) <? Z.of_nat n)) eqn:T; [|discriminate].
        apply andb_true_iff in T as [T1 T2]. apply Z.leb_le in T1. apply Z.ltb_lt in T2. exists (Z.to_nat (if i <? 0 then i + Z.of_nat n else i)). split; [lia|]. destruct (Z.ltb_spec i 0); lia. }
      rewrite (get_band_counted a' i j Cj) in E. injection E as <-. exists (band a' j), j. cbn [rbind]. split; [reflexivity|]. split; [apply Hb|]. split; [apply Cj|]. now left.
    + assert (e = IndexError) as ->. { unfold get_band in E. destruct (_ && _) in E; [discriminate|]. now injection E. }
      exists (band a' m), m. rewrite Em. cbn [rbind]. split; [reflexivity|]. split; [apply Hb|]. split; [apply M|]. right. split; [|exact M].
      intros k Ck. rewrite (get_band_counted a' i k Ck) in E. discriminate.
Qed.
Print Assumptions C38_band.
Lemma dstack_rgb {A} (a a' : arr A) ax i j k : cube a ax -> (forall j, is_band a ax j (band a' j)) -> is_rgb a ax i j k (dstack3 (band a' i) (band a' j) (band a' k)).
Proof. intros C H. exists (band a' i), (band a' j), (band a' k). repeat split; apply H. Qed.
(** Three or four bands, and no override: an RGB image of the first three. *)
Theorem C38_rgb {A} (a : arr A) ax b : cube a ax -> bands a ax = 3%nat \/ bands a ax = 4%nat ->
  exists img, format_multiband a b false ax None = Ok (OneImage img) /\ is_rgb a ax 0 1 2 img.
Proof.
  intros C N. destruct (moved a ax C) as (a' & Ea & Eh & Hb). unfold format_multiband. cbv zeta. rewrite Ea. rewrite <- Eh in N. clear Ea Eh.
  replace (negb ((hd 0 (shape a') =? 3) || (hd 0 (shape a') =? 4)) || false)%nat with false by (destruct N as [-> | ->]; reflexivity).
  unfold as_rgb. rewrite (get_band_counted a' 0 0), (get_band_counted a' 1 1), (get_band_counted a' 2 2) by (split; [lia|now left]). cbn [rbind].
  eexists. split; [reflexivity|]. now apply dstack_rgb.
Qed.
Print Assumptions C38_rgb.
(** Channels asked for: an RGB image of those bands, whatever the other arguments; an error if
    one does not exist. *)
Theorem C38_channels {A} (a : arr A) ax b override i j k : cube a ax ->
  (forall i' j' k', counted (bands a ax) i i' -> counted (bands a ax) j j' -> counted (bands a ax) k k' ->
     exists img, format_multiband a b override ax (Some (i, j, k)) = Ok (OneImage img) /\ is_rgb a ax i' j' k' img) /\
  ((forall i', ~ counted (bands a ax) i i') \/ (forall j', ~ counted (bands a ax) j j') \/ (forall k', ~ counted (bands a ax) k k') ->
     format_multiband a b override ax (Some (i, j, k)) = Err IndexError).
Proof.
  intros C. destruct (moved a ax C) as (a' & Ea & Eh & Hb). unfold format_multiband. cbv zeta. rewrite Ea. rewrite <- Eh. clear Ea Eh. unfold as_rgb. split.
  - intros i' j' k' Ci Cj Ck. rewrite (get_band_counted a' i i'), (get_band_counted a' j j'), (get_band_counted a' k k') by assumption. cbn [rbind].
    eexists. split; [reflexivity|]. now apply dstack_rgb.
  - assert (G : forall z, (exists x, get_band a' z = Ok x) \/ get_band a' z = Err IndexError).
    { intros z. unfold get_band. destruct (_ && _); [left; now eexists|now right]. }
    intros [N|[N|N]]; rewrite (get_band_missing a' _ N); [reflexivity| |]; destruct (G i) as [[x ->]| ->]; cbn [rbind]; try reflexivity.
    destruct (G j) as [[y ->]| ->]; reflexivity.
Qed.
Print Assumptions C38_channels.
(** Burst: every band, in order. *)
Theorem C38_burst {A} (a : arr A) ax override : cube a ax -> override = true \/ (bands a ax <> 3 /\ bands a ax <> 4)%nat ->
  exists l, format_multiband a Burst override ax None = Ok (Images l) /\ List.length l = bands a ax /\
    forall j, (j < bands a ax)%nat -> exists img, nth_error l j = Some img /\ is_band a ax j img.
Proof.
  intros C O. destruct (moved a ax C) as (a' & Ea & Eh & Hb). unfold format_multiband. cbv zeta. rewrite Ea. rewrite <- Eh in *. clear Ea Eh.
  replace (negb ((hd 0 (shape a') =? 3) || (hd 0 (shape a') =? 4)) || override)%nat with true.
  2:{ symmetry. destruct O as [->|[N3 N4]]; [apply orb_true_r|]. rewrite (proj2 (Nat.eqb_neq _ _) N3), (proj2 (Nat.eqb_neq _ _) N4). reflexivity. }
  eexists. split; [reflexivity|]. rewrite map_length, seq_length. split; [reflexivity|]. intros j L. exists (band a' j). split; [|apply Hb].
  rewrite nth_error_map, (nth_error_nth' _ 0%nat) by (rewrite seq_length; exact L). cbn. now rewrite seq_nth.
Qed.
Print Assumptions C38_burst.
(** Non-vacuity: a cube of 5 bands, 2 lines and 3 samples. *)
Definition demo_cube (sh : list nat) : arr (list nat) := mkArr sh (fun idx => idx).
Example C38_meets :
  cube (demo_cube [5; 2; 3]%nat) 0 /\ bands (demo_cube [5; 2; 3]%nat) 0 = 5%nat /\ is_middle 5 2 /\ counted 5 (-1) 4 /\ (forall k, ~ counted 5 7 k) /\
  (exists img, format_multiband (demo_cube [5; 2; 3]%nat) (BandIx (-1)) false 0 None = Ok (OneImage img) /\ at_ img [1; 2]%nat = [4; 1; 2]%nat) /\
  (exists img, format_multiband (demo_cube [2; 3; 4]%nat) MiddleBand false 1 None = Ok (OneImage img) /\ at_ img [1; 2; 0]%nat = [1; 0; 2]%nat).
Proof.
  repeat split; try (cbn; lia); try (right; split; [right; reflexivity|reflexivity]); try (intros k [L E]; lia); try (cbv; lia).
  - eexists. split; vm_compute; reflexivity.
  - eexists. split; vm_compute; reflexivity.
Qed.
(** Bands along the last axis: lines are shown as columns.  An image kept as (line, sample,
    band) with 2 lines and 3 samples gets 3 lines of 2. *)
Theorem C38_transposed_refuted {A} (a : arr A) lines samples n img : shape a = [lines; samples; n] -> (0 < n)%nat -> (n <> 3 /\ n <> 4)%nat ->
  format_multiband a MiddleBand false 2 None = Ok (OneImage img) ->
  shape img = [samples; lines] /\ exists j, is_middle n j /\ forall line sample, at_ img [sample; line] = at_ a [line; sample; j].
Proof.
  intros Es P N E. assert (C : cube a 2) by (unfold cube; rewrite Es; cbn; lia). assert (B : bands a 2 = n) by (unfold bands; now rewrite Es).
  destruct (C38_band a 2 MiddleBand false C) as (img' & j & E' & H & L & M); [now rewrite B|discriminate|right; now rewrite B|].
  rewrite E in E'. injection E' as <-. unfold is_band in H. rewrite Es in H. destruct H as [Hs Ha]. split; [exact Hs|]. exists j. rewrite B in M. split; [exact M|]. intros. apply Ha.
Qed.
Print Assumptions C38_transposed_refuted.
(** No bands: the middle band does not exist. *)
Theorem C38_empty_refuted {A} (a : arr A) ax : cube a ax -> bands a ax = 0%nat -> format_multiband a MiddleBand false ax None = Err IndexError.
Proof.
  intros C N. destruct (moved a ax C) as (a' & Ea & Eh & Hb). unfold format_multiband. cbv zeta. rewrite Ea. rewrite <- Eh in N. unfold single_band. rewrite N. cbn [Nat.eqb orb negb].
  rewrite (get_band_missing a'); [reflexivity|]. intros j [L _]. lia.
Qed.
Print Assumptions C38_empty_refuted.
