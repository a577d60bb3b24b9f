(** C64: the elements of PDS4 arrays. *)
From Coq Require Import QArith Permutation Lia ZArith.
From Verif.Base Require Import Py PyFacts Val Numpy Float.
From Verif.Model Require Import Types Scaling Pds4Types Pds4Values.
From Verif.Spec Require Import Scaling Pds4Tables Pds4Types Pds4Values.
From Verif.Proofs Require Import Scaling Pds4Values.
From Verif.Properties Require Pds4Types Image.
Open Scope Z_scope.

(** ** C64: array elements *)
(** the bytes of element [idx] of an array of shape [sh] *)
Definition element_bytes (m : array_meta) (sh : list nat) (w : nat) (file : list ascii) (idx : list nat) : list ascii :=
  bytes_at file (a_offset m + lin sh idx * w) w.
Lemma element_chunk m sh w file idx : (0 < w)%nat -> dimensions m = sh -> type_size (numpy_type (a_type m)) = w -> (a_offset m + prod sh * w <= length file)%nat -> valid sh idx ->
  nth (lin sh idx) (chunks w (read_array_bytes m file)) [] = element_bytes m sh w file idx /\ length (element_bytes m sh w file idx) = w.
Proof.
  intros W D T L V. apply lin_lt in V. assert (lin sh idx * w + w <= prod sh * w)%nat by nia. unfold read_array_bytes. rewrite D, T. split.
  - rewrite chunks_nth.
    + rewrite firstn_skipn_firstn by lia. unfold element_bytes, bytes_at. f_equal. rewrite Image.skipn_skipn. f_equal; lia.
    + rewrite firstn_length, skipn_length, Nat.min_l by lia. rewrite Nat.div_mul; lia.
  - unfold element_bytes, bytes_at. rewrite firstn_length, skipn_length. lia.
Qed.
Lemma read_length m sh w file : dimensions m = sh -> type_size (numpy_type (a_type m)) = w ->
  length (read_array_bytes m file) = Nat.min (prod sh * w) (length file - a_offset m).
Proof. intros D T. unfold read_array_bytes. rewrite D, T, firstn_length, skipn_length. reflexivity. Qed.
Lemma frombuffer_read m sh w file o f : pds4_type (a_type m) o f w -> dimensions m = sh -> (a_offset m + prod sh * w <= length file)%nat ->
  exists l, frombuffer (numpy_type (a_type m)) (read_array_bytes m file) = Ok l /\ length l = prod sh /\
    forall idx, valid sh idx -> pixel_holds o f w (element_bytes m sh w file idx) (nth (lin sh idx) l (PTruth false)).
Proof.
  intros T D L. destruct (type_known _ _ _ _ T) as (o' & N & _). destruct (numpy_not_object _ _ _ _ _ T N) as (W & _ & _ & _ & _ & F).
  assert (TS : type_size (numpy_type (a_type m)) = w) by now rewrite N.
  pose proof (read_length m sh w file D TS) as RL. rewrite Nat.min_l in RL by lia. rewrite N, F, RL, Nat.mod_mul by lia. cbn [Nat.eqb].
  eexists. split; [reflexivity|]. split; [rewrite map_length, chunks_length, RL; apply Nat.div_mul; lia|]. intros idx V.
  destruct (element_chunk m sh w file idx W D TS L V) as [E1 E2].
  rewrite nth_indep with (d' := decode (o', kind_of f, w) []).
  - rewrite map_nth. rewrite E1. now apply decode_ok with (name := a_type m).
  - rewrite map_length, chunks_length, RL, Nat.div_mul by lia. now apply lin_lt.
Qed.
Lemma shaped {A} (d : A) sh l : sh <> [] -> length l = prod sh ->
  exists a, (if Nat.ltb 1 (length sh) then reshape sh (flat_array d l) else Ok (flat_array d l)) = Ok a /\ shape a = sh /\
    forall idx, valid sh idx -> at_ a idx = nth (lin sh idx) l d.
Proof.
  intros N L. destruct (Nat.ltb_spec 1 (length sh)).
  - now apply reshape_flat.
  - destruct sh as [|n [|? ?]]; [easy| |cbn in H; lia]. eexists. split; [reflexivity|]. cbn [prod fold_right] in L. rewrite Nat.mul_1_r in L.
    split; [unfold flat_array; cbn; now rewrite L|]. intros idx V. inversion V as [|i ? ? ? _ V']; subst. inversion V'; subst. cbn. f_equal. lia.
Qed.
Theorem C64_pixels nn m file o f w sh :
  pds4_type (a_type m) o f w -> a_bitmask m = None -> sh <> [] -> axes_shape (a_axes m) sh ->
  (a_offset m + prod sh * w <= length file)%nat ->
  exists a, read_array nn m file = Ok a /\ shape a = sh /\
    forall idx, valid sh idx -> pixel_holds o f w (element_bytes m sh w file idx) (at_ a idx).
Proof.
  intros T B N A L. assert (D : dimensions m = sh) by (now apply axes_dims). destruct (frombuffer_read m sh w file o f T D L) as (l & E & Ll & H).
  unfold read_array. rewrite E. cbn [rbind]. unfold mask_pixels. rewrite B. cbn [rbind]. rewrite D. destruct (shaped (PTruth false) sh l N Ll) as (a & Ea & Es & Ha).
  exists a. split; [exact Ea|]. split; [exact Es|]. intros idx V. rewrite Ha by exact V. now apply H.
Qed.
Print Assumptions C64_pixels.
(** two lines of three big-endian signed 16-bit samples, the axes listed in the other order,
    after one byte of something else *)
Example C64_meets : let m := mkArray 1 [(2, 3%nat); (1, 2%nat)] $"SignedMSB2" None None in
  let file := map (fun n => ascii_of_nat n) [9; 0; 1; 255; 254; 0; 3; 1; 0; 0; 5; 128; 0]%nat in
  pds4_type (a_type m) MSB (Integer true) 2 /\ axes_shape (a_axes m) [2; 3]%nat /\ (a_offset m + prod [2; 3] * 2 <= length file)%nat /\
  exists a, read_array true m file = Ok a /\ ravel a = map (fun z => PElt (EI z)) [1; -2; 3; 256; 5; -32768].
Proof.
  cbv zeta. split; [|split; [|split]].
  - change (a_type _) with (sign_name true ++ order_name MSB ++ str_of_nat 2). apply t_int. now left.
  - split; [reflexivity|]. intros [|[|i]] H; cbn in *; auto; lia.
  - cbn. lia.
  - eexists. split; [vm_compute; reflexivity|vm_compute; reflexivity].
Qed.
(** With a bit mask: the bits the mask keeps, of the integer that the bytes hold. *)
Theorem C64_bits nn m file o s w sh bits :
  pds4_type (a_type m) o (Integer s) w -> a_bitmask m = Some bits -> a_special m = None -> binary bits ->
  (length bits <= 8 * w)%nat -> (s = true -> mask_bit bits (8 * Z.of_nat w - 1) = false) -> sh <> [] -> axes_shape (a_axes m) sh ->
  (a_offset m + prod sh * w <= length file)%nat ->
  exists a, read_array nn m file = Ok a /\ shape a = sh /\
    forall idx, valid sh idx -> exists u v, at_ a idx = PElt (EI v) /\ of_width s w u /\ written o w u (element_bytes m sh w file idx) /\
      of_width s w v /\ bits_kept (8 * Z.of_nat w) bits u v.
Proof.
  intros T B Sp Bi Lb Sg N A L. assert (D : dimensions m = sh) by (now apply axes_dims). destruct (frombuffer_read m sh w file o _ T D L) as (l & E & Ll & H).
  destruct (type_known _ _ _ _ T) as (o' & Nt & _). cbn [kind_of] in Nt. pose proof (type_width _ _ _ _ T) as W. cbn beta iota in W.
  set (pa := mkP (ptype_of_v (VInt s) w) 1 (map (fun p => (elt_of p, false)) l)).
  assert (Hl : Forall (fun p => exists v, p = PElt (EI v) /\ of_width s w v) l).
  { apply Forall_forall. intros p Hp. destruct (In_nth _ _ (PTruth false) Hp) as (k & Hk & <-). rewrite Ll in Hk.
    specialize (H (unlin sh k) (unlin_valid sh k Hk)). rewrite lin_unlin in H by exact Hk. destruct H as (v & E1 & E2 & _). eauto. }
  assert (Ni : numpy_int (Z.of_nat w)) by (unfold numpy_int; destruct W as [<-|[<-|[<-|[<-|[]]]]]; cbn; lia).
  assert (fits : forall z, of_width s w z <-> int_fits (TNum (DInt s (Z.of_nat w))) z).
  { intros z. unfold of_width, int_fits, int_holds. destruct s; lia. }
  destruct (Pds4Types.C62_kept nn bits pa) as (r & Er & _ & _ & F2).
  - split; [now exists s, (Z.of_nat w)|]. unfold pa. cbn [cells ptype_of ptype_of_v]. rewrite Forall_map. eapply Forall_impl; [|exact Hl].
    intros p (v & -> & Hv). exists v. split; [reflexivity|]. now apply fits.
  - unfold unmasked, pa. cbn [cells]. rewrite Forall_map. apply Forall_forall. reflexivity.
  - exact Bi.
  - left. split; [unfold pa; cbn [width_of ptype_of ptype_of_v]; lia|]. intros b [= -> <-]. now apply Sg.
  - unfold read_array. rewrite E. cbn [rbind]. unfold mask_pixels. rewrite B, Nt, Sp. fold pa. rewrite Er. cbn [rbind]. rewrite D.
    assert (Lr : length (map (fun c : elt * bool => PElt (fst c)) (cells r)) = prod sh).
    { rewrite map_length. pose proof (proj1 (F2_nth _ _ _ F2)) as F3. unfold pa in F3. cbn [cells] in F3. rewrite map_length in F3. lia. }
    destruct (shaped (PTruth false) sh _ N Lr) as (a & Ea & Es & Ha). exists a. split; [exact Ea|]. split; [exact Es|]. intros idx V. rewrite Ha by exact V.
    pose proof (H idx V) as (u & Eu & Wu & Wb). exists u. pose proof (lin_lt _ _ V) as Lt.
    assert (X : bits_cell bits None pa (nth (lin sh idx) (cells pa) (EI 0, false)) (nth (lin sh idx) (cells r) (EI 0, false))).
    { destruct (F2_nth _ _ _ F2) as [_ F3]. destruct (nth_error (cells pa) (lin sh idx)) as [x|] eqn:Ex.
      - destruct (F3 _ _ Ex) as (y & Ey & Rxy). now rewrite (nth_error_nth _ _ _ Ex), (nth_error_nth _ _ _ Ey).
      - apply nth_error_None in Ex. unfold pa in Ex. cbn [cells] in Ex. rewrite map_length in Ex. lia. }
    destruct X as (z & z' & X1 & X2 & _ & X3 & _ & X4). unfold pa in X1. cbn [cells] in X1.
    rewrite nth_indep with (d' := (fun p => (elt_of p, false)) (PTruth false)) in X1 by (rewrite map_length; lia). rewrite (map_nth (fun p => (elt_of p, false))) in X1.
    cbn [fst] in X1. rewrite Eu in X1. cbn [elt_of] in X1. injection X1 as <-.
    exists z'. split; [|split; [exact Wu|split; [exact Wb|split; [now apply fits|now apply X4]]]].
    rewrite nth_indep with (d' := (fun c : elt * bool => PElt (fst c)) (EI 0, false)) by (rewrite Lr; exact Lt). rewrite (map_nth (fun c : elt * bool => PElt (fst c))), X2. reflexivity.
Qed.
Print Assumptions C64_bits.
Example C64_bits_meets : let m := mkArray 0 [(1, 2%nat)] $"UnsignedLSB2" (Some $"1000000000001111") None in
  let file := map (fun n => ascii_of_nat n) [255; 255; 52; 18]%nat in
  binary $"1000000000001111" /\ pds4_type (a_type m) LSB (Integer false) 2 /\ axes_shape (a_axes m) [2]%nat /\
  exists a, read_array true m file = Ok a /\ ravel a = map (fun z => PElt (EI z)) [32783; 4].
Proof.
  cbv zeta. split; [|split; [|split]].
  - repeat (constructor; [auto|]). constructor.
  - change (a_type _) with (sign_name false ++ order_name LSB ++ str_of_nat 2). apply t_int. now left.
  - split; [reflexivity|]. intros [|i] H; cbn in *; auto; lia.
  - eexists. split; [vm_compute; reflexivity|vm_compute; reflexivity].
Qed.
(** A file that ends before the array does: an array of several axes is an error ... *)
Theorem C64_short_error nn m file o f w sh :
  pds4_type (a_type m) o f w -> a_bitmask m = None -> axes_shape (a_axes m) sh -> (1 < length sh)%nat ->
  (length file < a_offset m + prod sh * w)%nat -> (0 < prod sh)%nat ->
  read_array nn m file = Err ValueError.
Proof.
  intros T B A N L P. assert (D : dimensions m = sh) by (now apply axes_dims).
  destruct (type_known _ _ _ _ T) as (o' & Nt & _). destruct (numpy_not_object _ _ _ _ _ T Nt) as (W & _ & _ & _ & _ & F).
  assert (TS : type_size (numpy_type (a_type m)) = w) by now rewrite Nt. pose proof (read_length m sh w file D TS) as RL.
  unfold read_array. rewrite Nt, F. destruct (Nat.eqb_spec (length (read_array_bytes m file) mod w) 0) as [M|M]; [|reflexivity].
  cbn [rbind]. unfold mask_pixels. rewrite B. cbn [rbind]. rewrite D. destruct (Nat.ltb_spec 1 (length sh)); [|lia].
  unfold reshape, flat_array, size. cbn [shape prod fold_right]. rewrite Nat.mul_1_r, map_length, chunks_length.
  destruct (Nat.eqb_spec (prod sh) (length (read_array_bytes m file) / w)%nat) as [X|X]; [exfalso|reflexivity].
  apply Nat.mod_divides in M; [|lia]. destruct M as [c M]. rewrite M, Nat.mul_comm, Nat.div_mul in X by lia. subst c. nia.
Qed.
Print Assumptions C64_short_error.
(** ... but one of a single axis is silently shorter than the label says. *)
Theorem C64_short_refuted nn m file o f w n k :
  pds4_type (a_type m) o f w -> a_bitmask m = None -> a_axes m = [(1, n)] -> (k < n)%nat ->
  length file = (a_offset m + k * w)%nat ->
  exists a, read_array nn m file = Ok a /\ shape a = [k] /\ shape a <> [n].
Proof.
  intros T B A N L. assert (D : dimensions m = [n]) by (unfold dimensions; rewrite A; reflexivity).
  destruct (type_known _ _ _ _ T) as (o' & Nt & _). destruct (numpy_not_object _ _ _ _ _ T Nt) as (W & _ & _ & _ & _ & F).
  assert (TS : type_size (numpy_type (a_type m)) = w) by now rewrite Nt. pose proof (read_length m [n] w file D TS) as RL.
  cbn [prod fold_right] in RL. rewrite Nat.mul_1_r, Nat.min_r in RL by nia. rewrite L in RL. replace (a_offset m + k * w - a_offset m)%nat with (k * w)%nat in RL by lia.
  unfold read_array. rewrite Nt, F, RL, Nat.mod_mul by lia. cbn [Nat.eqb rbind]. unfold mask_pixels. rewrite B. cbn [rbind]. rewrite D.
  eexists. split; [reflexivity|]. unfold flat_array. cbn [shape]. rewrite map_length, chunks_length, RL, Nat.div_mul by lia. split; [reflexivity|]. intros [= ->]. lia.
Qed.
Print Assumptions C64_short_refuted.
Example C64_short_meets : let m := mkArray 0 [(1, 3%nat)] $"UnsignedByte" None None in
  pds4_type (a_type m) LSB (Integer false) 1 /\ length $"ab" = (a_offset m + 2 * 1)%nat /\
  exists a, read_array true m $"ab" = Ok a /\ ravel a = map (fun z => PElt (EI z)) [97; 98].
Proof. cbv zeta. split; [exact (t_byte false LSB)|]. split; [reflexivity|]. eexists. split; vm_compute; reflexivity. Qed.
(** A type that is not one of the numeric types of the standard: an error, never other data. *)
Theorem C64_unknown nn m file :
  (forall o f w, ~ pds4_type (a_type m) o f w) -> contains $"ASCII" (a_type m) = false -> read_array nn m file = Err ValueError.
Proof.
  intros H A. unfold read_array. assert (N : numpy_type (a_type m) = None).
  { destruct (numpy_type (a_type m)) as [t|] eqn:E; [exfalso|reflexivity]. unfold numpy_type in E.
    assert (X : In (a_type m, t) PDS_NUMERIC_TYPES).
    { clear - E. induction PDS_NUMERIC_TYPES as [|[k t'] l IH]; [discriminate|]. cbn [lookup_type] in E. destruct (str_eqb k (a_type m)) eqn:K; [|right; now apply IH].
      injection E as ->. apply str_eqb_eq in K as ->. now left. }
    clear E. cbv [PDS_NUMERIC_TYPES] in X.
    repeat (destruct X as [X|X];
      [apply (f_equal fst) in X; cbn [fst] in X; rewrite <- X in *;
       first [discriminate A
             |exact (H _ _ _ (t_byte true MSB))|exact (H _ _ _ (t_byte false MSB))
             |exact (H _ _ _ (t_single MSB))|exact (H _ _ _ (t_single LSB))|exact (H _ _ _ (t_double MSB))|exact (H _ _ _ (t_double LSB))
             |eapply H; apply (t_int true MSB 2); cbn; tauto|eapply H; apply (t_int true MSB 4); cbn; tauto|eapply H; apply (t_int true MSB 8); cbn; tauto
             |eapply H; apply (t_int false MSB 2); cbn; tauto|eapply H; apply (t_int false MSB 4); cbn; tauto|eapply H; apply (t_int false MSB 8); cbn; tauto
             |eapply H; apply (t_int true LSB 2); cbn; tauto|eapply H; apply (t_int true LSB 4); cbn; tauto|eapply H; apply (t_int true LSB 8); cbn; tauto
             |eapply H; apply (t_int false LSB 2); cbn; tauto|eapply H; apply (t_int false LSB 4); cbn; tauto|eapply H; apply (t_int false LSB 8); cbn; tauto
             |eapply H; apply (t_complex MSB 8); cbn; tauto|eapply H; apply (t_complex MSB 16); cbn; tauto
             |eapply H; apply (t_complex LSB 8); cbn; tauto|eapply H; apply (t_complex LSB 16); cbn; tauto]|]).
    destruct X. }
  rewrite N. reflexivity.
Qed.
Print Assumptions C64_unknown.
Example C64_unknown_meets : (forall o f w, ~ pds4_type $"SignedBitString" o f w) /\ contains $"ASCII" $"SignedBitString" = false.
Proof.
  split; [|reflexivity]. intros o f w T. destruct (type_known _ _ _ _ T) as (o' & N & _). vm_compute in N. discriminate N.
Qed.
