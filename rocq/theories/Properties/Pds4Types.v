(** C46, C47, C48, C61, C62: PDS4 arrays: integer types, scaling, special constants, the
    loaded object, bit masks. *)
From Coq Require Import QArith Qabs Lia.
From Verif.Spec Require Import Pds4Types.
From Verif.Proofs Require Import Scaling Pds4Types.
Open Scope Z_scope.

(** ** C46: the smallest integer type *)
(** Every number given is one of the type chosen. *)
Theorem C46_holds l t : min_type_list l = Ok t -> Forall (int_fits t) l /\ (machine_int t \/ t = TObj).
Proof.
  intros H. split; [|exact (min_list_int l t H)]. apply Forall_forall. intros z Hz. apply inside_fits, (min_list_inside l t H z Hz).
Qed.
Print Assumptions C46_holds.
(** A type is chosen unless there are no numbers. *)
Theorem C46_chosen l : (exists t, min_type_list l = Ok t) <-> l <> [].
Proof. split; [intros [t H] ->; discriminate|apply min_list_ok]. Qed.
Print Assumptions C46_chosen.
(** No narrower type would do, unless it would have to hold its own lowest number. *)
Theorem C46_narrowest l t t' : min_type_list l = Ok t -> machine_int t' -> Forall (fun z => int_fits t' z /\ ~ lowest t' z) l ->
  t <> TObj /\ itemsize t <= itemsize t'.
Proof.
  intros H (s & b & -> & B) F. rewrite Forall_forall in F. unfold min_type_list in H.
  destruct (fold1 Z.min l) as [lo|] eqn:El; [|discriminate]. cbn [rbind] in H. destruct (fold1 Z.max l) as [hi|] eqn:Eh; [|discriminate]. cbn [rbind] in H. injection H as <-.
  apply fold1_min in El as [Il El]. apply fold1_max in Eh as [Ih Eh].
  assert (I : forall z, In z l -> inside (TNum (DInt s b)) z) by (intros z Hz; destruct (F z Hz); now apply not_lowest_inside).
  destruct (I _ Il) as (_ & A1 & P1). destruct (I _ Ih) as (_ & A2 & P2).
  pose proof (min_int_narrow lo (Z.max (Z.abs lo) (Z.abs hi)) b s B ltac:(lia) ltac:(lia) P1) as W.
  destruct (min_int_type_int lo (Z.max (Z.abs lo) (Z.abs hi))) as [(s' & b' & E & _)|E]; rewrite E in *; cbn [rank itemsize] in *; [now split|].
  exfalso. destruct B as [->|[->|[->| ->]]]; lia.
Qed.
Print Assumptions C46_narrowest.
(** The same for the elements of an array, unless the lowest number of its type occurs. *)
Theorem C46_array a : int_array a -> Forall (fun z => ~ lowest (ptype_of a) z) (ints a) ->
  min_type_array (ptype_of a) (ints a) = min_type_list (ints a).
Proof.
  intros [(s & b & E & B) F] N. rewrite E in *. apply min_array_list. intros z Hz. rewrite Forall_forall in N, F. specialize (N z Hz).
  unfold ints in Hz. apply in_map_iff in Hz as (c & <- & Hc). destruct (F c Hc) as (z & Ez & H). rewrite Ez in *. now apply not_lowest_inside.
Qed.
Print Assumptions C46_array.
Example C46_meets : min_type_list [-3; 200] = Ok (TNum (DInt true 2)) /\ machine_int (TNum (DInt true 4)) /\
  Forall (fun z => int_fits (TNum (DInt true 4)) z /\ ~ lowest (TNum (DInt true 4)) z) [-3; 200].
Proof. split; [reflexivity|]. split; [exists true, 4; split; [reflexivity|unfold numpy_int; lia]|]. repeat constructor; cbn; lia. Qed.
Example C46_array_meets : int_array (mkP (TNum (DInt true 2)) 1 [(EI (-32767), false); (EI 5, false)]) /\
  Forall (fun z => ~ lowest (TNum (DInt true 2)) z) [-32767; 5].
Proof.
  split; [|repeat constructor; cbn; lia]. split; [exists true, 2; split; [reflexivity|unfold numpy_int; lia]|].
  repeat constructor; cbn; eexists; (split; [reflexivity|lia]).
Qed.
(** Not the smallest type: -128 is given two bytes, the lowest 64-bit integer a Python object. *)
Theorem C46_lowest_refuted :
  (forall b, b = 1 \/ b = 2 \/ b = 4 -> min_type_list [- 2 ^ (8 * b - 1)] = Ok (TNum (DInt true (2 * b))) /\ int_fits (TNum (DInt true b)) (- 2 ^ (8 * b - 1))) /\
  min_type_list [- 2 ^ 63] = Ok TObj /\ int_fits (TNum (DInt true 8)) (- 2 ^ 63).
Proof.
  split; [|split; [reflexivity|cbn; lia]]. intros b [->|[->| ->]]; (split; [reflexivity|cbn; lia]).
Qed.
Print Assumptions C46_lowest_refuted.
(** Of an array holding the lowest number of its type, the absolute value overflows and
    the type chosen may be too small: for every 16-bit array of it and small numbers. *)
Theorem C46_array_refuted l : In (-32768) l -> Forall (fun z => z = -32768 \/ 0 <= z <= 127) l ->
  min_type_array (TNum (DInt true 2)) l = Ok (TNum (DInt true 1)) /\ ~ int_fits (TNum (DInt true 1)) (-32768).
Proof.
  intros I F. split; [|cbn; lia]. unfold min_type_array. rewrite Forall_forall in F.
  destruct (fold1_ok Z.min l) as [lo El]; [now destruct l|]. destruct (fold1_ok Z.max l) as [hi Eh]; [now destruct l|]. rewrite El, Eh. cbn [rbind].
  apply fold1_min in El as [Il El]. apply fold1_max in Eh as [Ih Eh]. specialize (El _ I). specialize (Eh _ I).
  assert (lo = -32768) as -> by (destruct (F lo Il); lia). destruct (F hi Ih) as [->|H]; [reflexivity|].
  replace (np_abs (TNum (DInt true 2)) hi) with hi.
  - change (np_abs (TNum (DInt true 2)) (-32768)) with (-32768). rewrite Z.max_r by lia. unfold min_int_type. destruct (hi <=? 127) eqn:E; [reflexivity|]. apply Z.leb_gt in E. lia.
  - symmetry. cbn [np_abs]. rewrite Z.abs_eq by lia. apply wrap_id; [unfold numpy_int; lia|]. cbn. lia.
Qed.
Print Assumptions C46_array_refuted.

(** ** C48: special constants *)
(** Arrays of integers: the elements equal to a constant become masked; no value changes. *)
Theorem C48_int a sc : int_array a -> (forall z, special_int sc z -> int_fits (ptype_of a) z) ->
  exists b seen, mask_constants sc a = Ok (b, seen) /\ ptype_of b = ptype_of a /\ ndim b = ndim a /\
    Forall2 (fun x y => fst y = fst x /\ (snd y = true <-> snd x = true \/ exists z, fst x = EI z /\ special_int sc z)) (cells a) (cells b).
Proof.
  intros [T F] H. rewrite mask_constants_eq, (proj2 (fill_int (ptype_of a) sc T) H). do 2 eexists. split; [reflexivity|]. split; [reflexivity|]. split; [reflexivity|].
  cbn [cells]. apply F2_map_r. intros [x m] Hx. split; [reflexivity|]. cbn [fst snd]. rewrite orb_true_iff. rewrite Forall_forall in F. destruct (F _ Hx) as (z & E & _). cbn [fst] in E. subst x.
  rewrite (hit_int (ptype_of a) sc z T). split; intros [A|A]; try (now left); right; [now exists z|destruct A as (z' & [= <-] & A); exact A].
Qed.
Print Assumptions C48_int.
(** Arrays of floats: constants are rounded to the type of the array first. *)
Theorem C48_float d a sc : float_array d a -> finite_constants (ptype_of a) (Some sc) ->
  exists b seen, mask_constants sc a = Ok (b, seen) /\ ptype_of b = ptype_of a /\ ndim b = ndim a /\
    Forall2 (fun x y => fst y = fst x /\ (snd y = true <-> snd x = true \/ exists v, fst x = EF v /\ special_float d sc v)) (cells a) (cells b).
Proof.
  intros (D & E & F) H. rewrite E in H. rewrite mask_constants_eq, E, (fill_float d sc D). do 2 eexists. split; [reflexivity|]. split; [reflexivity|]. split; [reflexivity|].
  cbn [cells]. apply F2_map_r. intros [x m] Hx. split; [reflexivity|]. cbn [fst snd]. rewrite orb_true_iff. rewrite Forall_forall in F. destruct (F _ Hx) as (v & Ev & _). cbn [fst] in Ev. subst x.
  rewrite (hit_float d sc v D (H D)). split; intros [A|A]; try (now left); right; [now exists v|destruct A as (v' & [= <-] & A); exact A].
Qed.
Print Assumptions C48_float.
(** A float that is a number of the type is masked exactly where it occurs. *)
Theorem C48_float_exact d q v : is_float d -> holds d q -> special_float d [($"missing_constant", CF q)] v <-> exists r, v = Fin r /\ (r == q)%Q.
Proof.
  intros D H. pose proof (round_to_grid d q D H) as G. unfold special_float. split.
  - intros (c & q' & (k & [[= _ <-]|[]] & _) & [[= <-]|(z & [=] & _)] & r & -> & E). exists r. split; [reflexivity|]. now rewrite E.
  - intros (r & -> & E). exists (CF q), q. split.
    + exists $"missing_constant". split; [now left|]. intros (rest & X). discriminate X.
    + split; [now left|]. exists r. split; [reflexivity|]. now rewrite G.
Qed.
Print Assumptions C48_float_exact.
Example C48_meets : let a := mkP (TNum (DInt false 1)) 2 [(EI 7, false); (EI 255, false); (EI 0, false)] in
  let sc := [($"missing_constant", CI 255); ($"valid_minimum", CI 0)] in
  int_array a /\ (forall z, special_int sc z -> int_fits (ptype_of a) z) /\ special_int sc 255 /\ ~ special_int sc 0.
Proof.
  cbv zeta. split; [|split; [|split]].
  - split; [exists false, 1; split; [reflexivity|unfold numpy_int; lia]|]. repeat constructor; cbn; eexists; (split; [reflexivity|lia]).
  - intros z (k & [[= _ <-]|[[= <- <-]|[]]] & N); cbn; lia.
  - exists $"missing_constant". split; [now left|]. intros (r & E). discriminate E.
  - intros (k & [[= _]|[[= <-]|[]]] & N). apply N. now eexists.
Qed.
(** A constant written with a decimal point masks nothing in an array of integers. *)
Theorem C48_decimal_refuted a k z : int_array a -> exists b, mask_constants [(k, CF (inject_Z z))] a = Ok (b, false) /\ b = a.
Proof.
  intros [T F]. rewrite mask_constants_eq. assert (N : forall kc, In kc [(k, CF (inject_Z z))] -> applied (ptype_of a) kc = false).
  { intros kc [<-|[]]. unfold applied. cbn [fst snd]. destruct T as (s & b & -> & B). unfold compatible. cbn [kind special_kind]. destruct s; cbn; apply andb_false_r. }
  cbn [forallb existsb]. rewrite (N _ (or_introl eq_refl)). cbn [implb andb orb]. eexists. split; [reflexivity|]. destruct a as [t n cs]. cbn [ptype_of ndim cells] in *. f_equal.
  rewrite <- (map_id cs) at 2. apply map_ext. intros [x m]. cbn [fst snd]. unfold hit. cbn [existsb]. rewrite (N _ (or_introl eq_refl)). cbn. now rewrite orb_false_r.
Qed.
Print Assumptions C48_decimal_refuted.
(** A constant that is no number of the array's type makes get_scaled fail. *)
Theorem C48_range_refuted a m l z : int_array a -> Special_Constants m = Some l -> special_int l z -> ~ int_fits (ptype_of a) z ->
  ~ without_scaling (scaling_factor m) (value_offset m) -> pds4_get_scaled m a = (a, Err TypeError).
Proof.
  intros [T F] E S N Tr. apply nontrivial_iff in Tr. unfold pds4_get_scaled, apply_scaling. rewrite Tr, E, mask_constants_eq.
  destruct (forallb _ l) eqn:Ef; [|reflexivity]. exfalso. apply N. exact (proj1 (fill_int (ptype_of a) l T) Ef z S).
Qed.
Print Assumptions C48_range_refuted.
Example C48_range_meets : int_array (mkP (TNum (DInt false 1)) 1 [(EI 7, false)]) /\ special_int [($"missing_constant", CI (-1))] (-1) /\ ~ int_fits (TNum (DInt false 1)) (-1).
Proof.
  split; [split; [exists false, 1; split; [reflexivity|unfold numpy_int; lia]|]; repeat constructor; cbn; eexists; (split; [reflexivity|lia])|].
  split; [|cbn; lia]. exists $"missing_constant". split; [now left|]. intros (r & E). discriminate E.
Qed.
(** Without a scaling factor or an offset get_scaled masks nothing, whatever constants the label gives. *)
Theorem C48_unscaled_refuted a m l z : without_scaling (scaling_factor m) (value_offset m) -> Special_Constants m = Some l ->
  special_int l z -> In (EI z, false) (cells a) -> unmasked a ->
  exists r, snd (pds4_get_scaled m a) = Ok r /\ In (EI z, false) (cells r) /\ unmasked r.
Proof. intros E _ _ I U. apply trivial_iff in E. unfold pds4_get_scaled, apply_scaling. rewrite E. now exists a. Qed.
Print Assumptions C48_unscaled_refuted.
Example C48_unscaled_meets : without_scaling None (Some (SI 0)) /\ special_int [($"missing_constant", CI (-1))] (-1).
Proof. split; [split; reflexivity|]. exists $"missing_constant". split; [now left|]. intros (r & E). discriminate E. Qed.

(** ** C47: scaling *)
(** Arrays of integers, integer factor and offset: when get_scaled succeeds, every element
    is exactly z * k + j (special constants stay as they are and are masked), and is a
    number of the type of the result. *)
Theorem C47_exact a s o sc k j r : int_array a -> int_factor s 1 k -> int_factor o 0 j -> ~ (k = 1 /\ j = 0) ->
  snd (apply_scaling a s o sc) = Ok r ->
  ndim r = ndim a /\ Forall2 (scaled_cell k j sc a) (cells a) (cells r) /\ Forall (int_fits (ptype_of r)) (ints r).
Proof.
  intros A Hs Ho N H. destruct (int_array_zarr a A) as (l & E & F). destruct A as [T _]. rewrite E in H. destruct (apply_scaling _ s o sc) as [lft x] eqn:Ea. cbn [snd] in H. subst x.
  destruct (apply_ints (ptype_of a) (ndim a) l s o k j sc lft r T F Hs Ho N Ea) as (t' & -> & I & _). split; [reflexivity|]. split.
  - assert (Ec : cells a = map cell_of l) by (rewrite E; reflexivity). rewrite Ec. unfold zarr. cbn [cells]. rewrite map_map. apply F2_map_l, F2_map_r. intros [z m] Hp. exists z. split; [reflexivity|]. cbn [cell_of fst snd]. unfold outz, outm. cbn [fst snd].
    pose proof (markz_iff (ptype_of a) sc z T) as M. split; [|split].
    + intros [->|Sp]; [reflexivity|]. apply M in Sp. now rewrite Sp, orb_true_r.
    + intros [-> Sp]. destruct (markz _ sc z); [|reflexivity]. destruct Sp. now apply M.
    + assert (Hm : has_masked a <-> existsb snd l = true).
      { unfold has_masked. rewrite Ec. rewrite Exists_exists, existsb_exists. split.
        - intros (c & Hc & X). apply in_map_iff in Hc as (q & <- & Hq). now exists q.
        - intros (q & Hq & X). exists (cell_of q). split; [now apply in_map|exact X]. }
      destruct sc as [c|]; cbn [keep_mask].
      * destruct (existsb snd l) eqn:X; rewrite Hm, ?orb_true_iff, ?M; tauto || (split; [intros [->|Sp]; [now left|right; split; [exact Sp|discriminate]]|tauto]).
      * rewrite orb_true_iff, M. cbn [special_in]. tauto.
  - unfold ints, zarr. cbn [cells ptype_of]. rewrite !map_map. cbn [cell_of fst]. apply Forall_map, Forall_forall. intros p Hp. now apply inside_fits, I.
Qed.
Print Assumptions C47_exact.
(** It succeeds when a negative number occurs before or after scaling, or the numbers are
    of a size that calls for a signed type. *)
Theorem C47_runs a s o sc k j : int_array a -> cells a <> [] -> int_factor s 1 k -> int_factor o 0 j ->
  Z.abs k < 2 ^ 63 -> Z.abs j < 2 ^ 63 -> (forall z, special_in sc z -> int_fits (ptype_of a) z) ->
  (exists v, extremes (ints a) k j v /\ v < 0) \/
  (exists v, extremes (ints a) k j v /\ (forall u, extremes (ints a) k j u -> Z.abs u <= Z.abs v) /\ (signed_size (Z.abs v) \/ 2 ^ 64 <= Z.abs v)) ->
  exists r, snd (apply_scaling a s o sc) = Ok r.
Proof.
  intros A Ne Hs Ho Ak Aj Fc H. destruct (int_array_zarr a A) as (l & E & F). destruct A as [T _].
  assert (Ei : ints a = map fst l). { unfold ints. rewrite E. unfold zarr. cbn [cells]. rewrite map_map. reflexivity. }
  destruct (Z.eq_dec k 1) as [Ek|Ek]; [destruct (Z.eq_dec j 0) as [Ej|Ej]|].
  { unfold apply_scaling. rewrite (factor_scaling s k Hs), (factor_offset o j Ho), Ek, Ej. now exists a. }
  all: rewrite Ei in H; assert (Ea : apply_scaling a s o sc = apply_scaling (zarr (ptype_of a) (ndim a) l) s o sc) by (rewrite <- E; reflexivity); rewrite Ea; apply (apply_runs (ptype_of a) (ndim a) l s o k j sc T); auto; try tauto.
  all: try (intros ->; apply Ne; rewrite E; reflexivity).
  all: intros t1 Hn; apply needed_spec in Hn as (lo & m & -> & _ & Lo & (v0 & X0 & ->) & M); apply min_kind_signed;
    destruct H as [(v & X & Vn)|(v & X & Mv & Sz)]; [left; specialize (Lo v X); lia|right];
    assert (Z.abs v0 = Z.abs v) as -> by (specialize (M v X); specialize (Mv v0 X0); lia); exact Sz.
Qed.
Print Assumptions C47_runs.
Example C47_meets : let a := mkP (TNum (DInt true 2)) 2 [(EI 20000, false); (EI (-7), false); (EI (-32768), false)] in
  int_array a /\ extremes (ints a) 3 (-10) (-32768) /\
  match snd (apply_scaling a (Some (SI 3)) (Some (SI (-10))) (Some [($"missing_constant", CI (-32768))])) with
  | Ok r => cells r = [(EI 59990, false); (EI (-31), false); (EI (-32768), true)] /\ ptype_of r = TNum (DInt true 4) | Err _ => False end.
Proof.
  cbv zeta. split; [|split].
  - split; [exists true, 2; split; [reflexivity|unfold numpy_int; lia]|]. repeat constructor; cbn; eexists; (split; [reflexivity|lia]).
  - exists (-32768). split; [cbn; tauto|]. split; [left; cbn; intros y Hy; intuition lia|now left].
  - vm_compute. split; reflexivity.
Qed.
(** Numbers that call for an unsigned type, and a factor that calls for a signed one:
    numpy refuses to multiply in place and get_scaled fails. *)
Theorem C47_unsigned_refuted a o sc k j v : int_array a -> cells a <> [] -> int_factor o 0 j -> k <> 1 -> signed_size (Z.abs k) ->
  (forall z, special_in sc z -> int_fits (ptype_of a) z) ->
  extremes (ints a) k j v -> (forall u, extremes (ints a) k j u -> 0 <= u <= v) -> unsigned_size v ->
  snd (apply_scaling a (Some (SI k)) o sc) = Err TypeError.
Proof.
  intros A Ne Ho Nk Sk Fc X B U. destruct (int_array_zarr a A) as (l & E & F). destruct A as [T _].
  assert (Ei : ints a = map fst l). { unfold ints. rewrite E. unfold zarr. cbn [cells]. rewrite map_map. reflexivity. }
  rewrite Ei in *. assert (Ea : apply_scaling a (Some (SI k)) o sc = apply_scaling (zarr (ptype_of a) (ndim a) l) (Some (SI k)) o sc) by (rewrite <- E; reflexivity). rewrite Ea. apply (apply_fails (ptype_of a) (ndim a) l (Some (SI k)) o k j sc T); auto.
  - intros ->. apply Ne. rewrite E. reflexivity.
  - intros t1 Hn. apply needed_spec in Hn as (lo & m & -> & X0 & Lo & (v0 & X1 & ->) & M). specialize (B lo X0) as B0. specialize (B v0 X1) as B1. specialize (M v X).
    apply min_kind_unsigned; [lia|]. replace (Z.abs v0) with v by lia. exact U.
Qed.
Print Assumptions C47_unsigned_refuted.
Example C47_unsigned_meets : let a := mkP (TNum (DInt false 1)) 1 [(EI 0, false); (EI 100, false)] in
  int_array a /\ signed_size (Z.abs 2) /\ extremes (ints a) 2 0 200 /\ (forall u, extremes (ints a) 2 0 u -> 0 <= u <= 200) /\ unsigned_size 200.
Proof.
  cbv zeta. split; [|split; [|split; [|split]]].
  - split; [exists false, 1; split; [reflexivity|unfold numpy_int; lia]|]. repeat constructor; cbn; eexists; (split; [reflexivity|lia]).
  - unfold signed_size. lia.
  - exists 100. split; [cbn; tauto|]. split; [right; cbn; intros y Hy; intuition lia|now right].
  - intros u (z & Hz & _ & Hu). cbn in Hz. intuition lia.
  - unfold unsigned_size. lia.
Qed.
(** An offset of 2 ^ 63 or more, as for unsigned integers that are stored as signed ones,
    and numbers that fit a signed type before and after: get_scaled fails. *)
Theorem C47_offset_refuted a j : int_array a -> cells a <> [] -> 2 ^ 63 <= j < 2 ^ 64 -> (exists z, In z (ints a) /\ z < 0) ->
  (forall z, In z (ints a) -> - 2 ^ 63 < z /\ z + j < 2 ^ 63) -> snd (apply_scaling a None (Some (SI j)) None) = Err TypeError.
Proof.
  intros A Ne Hj (z & Hz & Nz) B. destruct (int_array_zarr a A) as (l & E & F). destruct A as [T _].
  assert (Ei : ints a = map fst l). { unfold ints. rewrite E. unfold zarr. cbn [cells]. rewrite map_map. reflexivity. }
  rewrite Ei in *. rewrite E. apply apply_huge; [exact T| |exact Hj|].
  - intros ->. apply Ne. rewrite E. reflexivity.
  - intros t1 Hn. apply needed_spec in Hn as (lo & m & -> & _ & Lo & (v0 & (y & Iy & _ & V) & ->) & M).
    assert (lo < 0).
    { destruct (fold1_ok Z.min (map fst l)) as [x Ex]; [intros X; rewrite X in Hz; destruct Hz|]. apply fold1_min in Ex as [Ix Ex]. pose proof (Ex _ Hz).
      enough (lo <= x) by lia. apply Lo. exists x. split; [exact Ix|]. split; [left; exact Ex|now left]. }
    specialize (B y Iy). assert (Z.abs v0 < 2 ^ 63) by lia. unfold min_int_type.
    repeat match goal with |- context [if ?b then _ else _] => destruct b eqn:? end; try reflexivity; rewrite ?andb_false_iff, ?Z.leb_gt, ?Z.leb_le in *; exfalso; lia.
Qed.
Print Assumptions C47_offset_refuted.
Example C47_offset_meets : let a := mkP (TNum (DInt true 8)) 1 [(EI (-5), false)] in int_array a /\ (exists z, In z (ints a) /\ z < 0) /\
  (forall z, In z (ints a) -> - 2 ^ 63 < z /\ z + 2 ^ 63 < 2 ^ 63).
Proof.
  cbv zeta. split; [|split].
  - split; [exists true, 8; split; [reflexivity|unfold numpy_int; lia]|]. repeat constructor; cbn; eexists; (split; [reflexivity|lia]).
  - exists (-5). cbn. lia.
  - cbn. intros z Hz. intuition lia.
Qed.
Lemma double_case a s o : int_array a /\ (sf s || sf o) = true \/ (exists d, float_array d a) ->
  Forall (fun c => fits_elt (ptype_of a) (fst c)) (cells a) /\ ptype_of a <> TObj /\ float_type (ptype_of a) || sf s || sf o = true.
Proof.
  intros K. destruct K as [[[(si & b & E & B) F] Sf]|(d & D & E & F)].
  - rewrite E in *. split; [|split; [discriminate|destruct si; cbn [float_type]; exact Sf]]. eapply Forall_impl; [|exact F]. intros c (z & -> & Hz). cbn. now split.
  - rewrite E. split; [|split; [discriminate|destruct d; [destruct D|reflexivity|reflexivity]]]. eapply Forall_impl; [|exact F]. intros c (v & -> & Hv). destruct d; [destruct D| |]; destruct v; cbn [fits_elt]; first [exact I|now apply Hv].
Qed.
(** Arrays of floats, or a factor or offset that is a float: the result is of doubles, and
    every element is x * s + o computed in double precision. *)
Theorem C47_double a s o sc r : int_array a /\ (sf s || sf o) = true \/ (exists d, float_array d a) ->
  ~ without_scaling s o -> finite_constants (ptype_of a) sc -> moderate_array (factor s 1) (factor o 0) a ->
  snd (apply_scaling a s o sc) = Ok r ->
  ptype_of r = TNum DF64 /\ ndim r = ndim a /\ Forall2 (double_cell (factor s 1) (factor o 0) sc a) (cells a) (cells r).
Proof.
  intros K Tr Fc (Ms & Mo & Mx) H. pose proof Tr as Tr'. apply nontrivial_iff in Tr'. pose proof (double_case a s o K) as F.
  destruct F as (F & No & Fl). destruct (apply_scaling a s o sc) as [lft x] eqn:Ea. cbn [snd] in H. subst x.
  destruct (apply_double a s o sc lft r F No Tr' Fl Ea) as [-> _]. split; [reflexivity|]. split; [reflexivity|]. cbn [cells]. apply F2_map_r. intros c Hc.
  rewrite Forall_forall in F, Mx. specialize (F c Hc). specialize (Mx c Hc). pose proof (conv_number (ptype_of a) (fst c) F) as Cn.
  assert (Hk : marked (ptype_of a) sc c = true <-> snd c = true \/ special_elt (ptype_of a) sc (fst c)).
  { unfold marked. rewrite orb_true_iff. enough (match sc with Some l => hit (ptype_of a) l (fst c) | None => false end = true <-> special_elt (ptype_of a) sc (fst c)) by tauto.
    destruct sc as [l|]; [|cbn; split; [discriminate|tauto]]. unfold special_elt. destruct (ptype_of a) as [d|] eqn:Et; [|now destruct No].
    destruct d as [si b| |]; destruct (fst c) as [z|v]; try (now destruct F).
    - apply hit_int. exists si, b. split; [reflexivity|]. apply F.
    - apply hit_float; [exact I|]. exact (Fc I).
    - apply hit_float; [exact I|]. exact (Fc I). }
  unfold double_cell. cbn [fst snd]. unfold outd. split; [|split].
  - intros Kp. apply Hk in Kp. rewrite Kp. exact Cn.
  - intros Kp. destruct (marked (ptype_of a) sc c) eqn:X; [destruct (Kp (proj1 Hk eq_refl))|]. cbn [number]. apply steps_double; try assumption.
    + intros E. destruct s as [s|]; [|reflexivity]. cbn [no_scaling factor] in *. now apply Qeq_bool_iff.
    + intros E. destruct o as [o|]; [|reflexivity]. cbn [no_offset factor] in *. now apply Qeq_bool_iff.
    + intros q r E1 E2. clear - Cn E1 E2. rewrite E1, E2 in Cn. cbn [as_double] in Cn. destruct Cn as [_ N]. specialize (N 0%Q holds_0).
      setoid_replace (0 - q)%Q with (- q)%Q in N by ring. rewrite Qabs_opp in N.
      pose proof (Qabs_triangle (r - q) q) as T. setoid_replace (r - q + q)%Q with r in T by ring.
      eapply Qle_trans; [exact T|]. setoid_replace (2 * Qabs q)%Q with (Qabs q + Qabs q)%Q by ring. apply Qplus_le_compat; [exact N|apply Qle_refl].
  - assert (Hm : has_masked a <-> is_masked a = true) by (unfold has_masked, is_masked; rewrite Exists_exists, existsb_exists; reflexivity).
    destruct sc as [l|].
    + destruct (is_masked a) eqn:X; rewrite Hm, ?Hk; [tauto|]. split; [intros [Y|Y]; [now left|right; split; [exact Y|discriminate]]|tauto].
    + rewrite Hk. cbn [special_elt]. tauto.
Qed.
Print Assumptions C47_double.
(** It succeeds when the factors are machine integers or floats and the constants are
    numbers of the array's type. *)
Theorem C47_double_runs a s o sc : int_array a /\ (sf s || sf o) = true \/ (exists d, float_array d a) ->
  small_factor s -> small_factor o -> (int_array a -> forall z, special_in sc z -> int_fits (ptype_of a) z) ->
  exists r, snd (apply_scaling a s o sc) = Ok r.
Proof.
  intros K Ss So Fc. destruct (double_case a s o K) as (F & No & Fl). destruct (no_scaling s && no_offset o) eqn:E.
  - unfold apply_scaling. rewrite E. now exists a.
  - apply double_runs; try assumption.
    + destruct K as [[[T _] _]|(d & D & E' & _)]; [now left|right; now exists d].
    + intros T. apply Fc. split; [exact T|]. eapply Forall_impl; [|exact F]. intros c Hc. destruct T as (si & b & E' & B). rewrite E' in *. destruct (fst c); [|destruct Hc]. eexists. split; [reflexivity|apply Hc].
Qed.
Print Assumptions C47_double_runs.
Example C47_double_meets : let a := mkP (TNum (DInt false 1)) 1 [(EI 7, false); (EI 255, false)] in
  int_array a /\ (sf (Some (SF (1 # 2))) || sf (Some (SI 3))) = true /\ moderate_array (factor (Some (SF (1 # 2))) 1) (factor (Some (SI 3)) 0) a /\
  finite_constants (ptype_of a) (Some [($"missing_constant", CI 255)]) /\
  match snd (apply_scaling a (Some (SF (1 # 2))) (Some (SI 3)) (Some [($"missing_constant", CI 255)])) with
  | Ok r => map (fun c => match c with (EF (Fin q), m) => (Qred q, m) | (_, m) => (0%Q, m) end) (cells r) = [((13 # 2)%Q, false); (255 # 1, true)]%Q | Err _ => False end.
Proof.
  cbv zeta. split; [|split; [|split; [|split]]].
  - split; [exists false, 1; split; [reflexivity|unfold numpy_int; lia]|]. repeat constructor; cbn; eexists; (split; [reflexivity|lia]).
  - reflexivity.
  - split; [unfold moderate; cbn; vm_compute; discriminate|]. split; [unfold moderate; cbn; vm_compute; discriminate|].
    repeat constructor; cbn [fst number]; intros q [= <-]; vm_compute; discriminate.
  - cbn. intros [].
  - vm_compute. reflexivity.
Qed.

(** ** C61: get_scaled and the loaded object *)
(** Without scaling nothing is written. *)
Theorem C61_unscaled a m : without_scaling (scaling_factor m) (value_offset m) -> pds4_get_scaled m a = (a, Ok a).
Proof. intros E. apply trivial_iff in E. unfold pds4_get_scaled, apply_scaling. now rewrite E. Qed.
Print Assumptions C61_unscaled.
(** Integers scaled by integers: the loaded array stays as it is when some scaled value is
    no number of its type. *)
Theorem C61_widened a m k j r : int_array a -> int_factor (scaling_factor m) 1 k -> int_factor (value_offset m) 0 j ->
  (exists z, In z (ints a) /\ ~ int_fits (ptype_of a) (z * k + j)) -> snd (pds4_get_scaled m a) = Ok r ->
  fst (pds4_get_scaled m a) = a.
Proof.
  intros A Hs Ho (z & Hz & Nz) H. unfold pds4_get_scaled in *. destruct (int_array_zarr a A) as (l & E & F). destruct A as [T _].
  assert (Ei : ints a = map fst l). { unfold ints. rewrite E. unfold zarr. cbn [cells]. rewrite map_map. reflexivity. }
  rewrite Ei in Hz. apply in_map_iff in Hz as (p & <- & Hp).
  assert (N : ~ (k = 1 /\ j = 0)). { intros [-> ->]. apply Nz. rewrite Z.mul_1_r, Z.add_0_r. rewrite Forall_forall in F. now apply F. }
  rewrite E in H at 1. rewrite E. change (ptype_of (zarr (ptype_of a) (ndim a) l)) with (ptype_of a) in *. destruct (apply_scaling (zarr (ptype_of a) (ndim a) l) _ _ _) as [lft x] eqn:Ea. cbn [fst snd] in *. subst x.
  destruct (apply_ints (ptype_of a) (ndim a) l _ _ k j _ lft r T F Hs Ho N Ea) as (t' & _ & _ & [->|[_ I]]); [reflexivity|].
  destruct (I p Hp) as [_ I2]. destruct Nz. now apply inside_fits.
Qed.
Print Assumptions C61_widened.
Example C61_widened_meets : let a := mkP (TNum (DInt true 2)) 2 [(EI 20000, false); (EI (-7), false)] in
  int_array a /\ (exists z, In z (ints a) /\ ~ int_fits (ptype_of a) (z * 2 + 0)) /\
  match snd (pds4_get_scaled (mkMeta (Some (SI 2)) None None) a) with Ok r => ints r = [40000; -14] | Err _ => False end.
Proof.
  cbv zeta. split; [|split].
  - split; [exists true, 2; split; [reflexivity|unfold numpy_int; lia]|]. repeat constructor; cbn; eexists; (split; [reflexivity|lia]).
  - exists 20000. split; [cbn; tauto|cbn; lia].
  - vm_compute. reflexivity.
Qed.
(** Scaling to floats: the loaded array stays as it is unless it is of doubles. *)
Theorem C61_to_double a m r : int_array a /\ (sf (scaling_factor m) || sf (value_offset m)) = true \/ float_array DF32 a ->
  snd (pds4_get_scaled m a) = Ok r -> fst (pds4_get_scaled m a) = a.
Proof.
  intros K H. unfold pds4_get_scaled in *. assert (K' : int_array a /\ (sf (scaling_factor m) || sf (value_offset m)) = true \/ (exists d, float_array d a)) by (destruct K; [now left|right; now exists DF32]).
  destruct (double_case a _ _ K') as (F & No & Fl). destruct (no_scaling (scaling_factor m) && no_offset (value_offset m)) eqn:E.
  - unfold apply_scaling. now rewrite E.
  - destruct (apply_scaling a _ _ _) as [lft x] eqn:Ea. cbn [fst snd] in *. subst x.
    destruct (apply_double a _ _ _ lft r F No E Fl Ea) as (_ & L & _). apply L. intros T. destruct K as [[[(si & b & E' & _) _] _]|(_ & E' & _)]; rewrite E' in T; discriminate.
Qed.
Print Assumptions C61_to_double.
(** But signed integers with a negative one among them are overwritten with their scaled
    values when these fit. *)
Theorem C61_in_place_refuted a b m k j : int_array a -> ptype_of a = TNum (DInt true b) ->
  int_factor (scaling_factor m) 1 k -> int_factor (value_offset m) 0 j -> ~ (k = 1 /\ j = 0) -> Z.abs k < 2 ^ 63 -> Z.abs j < 2 ^ 63 ->
  (forall z, special_in (Special_Constants m) z -> int_fits (ptype_of a) z) ->
  (exists z, In z (ints a) /\ z < 0) ->
  (forall z, In z (ints a) -> ~ lowest (ptype_of a) z /\ int_fits (ptype_of a) (z * k + j) /\ ~ lowest (ptype_of a) (z * k + j)) ->
  exists r, snd (pds4_get_scaled m a) = Ok r /\ ptype_of (fst (pds4_get_scaled m a)) = ptype_of a /\
    Forall2 (overwritten k j (Special_Constants m)) (cells a) (cells (fst (pds4_get_scaled m a))).
Proof.
  intros A Et Hs Ho N Ak Aj Fc (z & Hz & Nz) I. unfold pds4_get_scaled in *. destruct (int_array_zarr a A) as (l & E & F). destruct A as [T _].
  assert (Ei : ints a = map fst l). { unfold ints. rewrite E. unfold zarr. cbn [cells]. rewrite map_map. reflexivity. }
  rewrite Ei in *. rewrite E. change (ptype_of (zarr (ptype_of a) (ndim a) l)) with (ptype_of a). rewrite Et in *.
  pose proof T as (s & b' & E' & B). injection E' as <- <-. apply in_map_iff in Hz as (p & <- & Hp).
  assert (Ne : l <> []) by (intros ->; destruct Hp).
  destruct (apply_runs (TNum (DInt true b)) (ndim a) l _ _ k j (Special_Constants m) T Ne Hs Ho N Fc Ak Aj) as [r Hr].
  { intros t1 Hn. apply needed_spec in Hn as (lo & mm & -> & _ & Lo & _). apply min_kind_signed. left.
    destruct (fold1_ok Z.min (map fst l)) as [x Ex]; [now destruct l|]. apply fold1_min in Ex as [Ix Ex]. pose proof (Ex _ (in_map fst _ _ Hp)) as L.
    enough (lo <= x) by lia. apply Lo. exists x. split; [exact Ix|]. split; [now left|now left]. }
  exists r. split; [exact Hr|]. destruct (apply_scaling (zarr (TNum (DInt true b)) (ndim a) l) _ _ _) as [lft y] eqn:Ea. cbn [fst snd] in *. subst y.
  apply (apply_in_place b (ndim a) l _ _ k j) in Ea; [|assumption..|now exists p|].
  - subst lft. split; [reflexivity|]. unfold zarr. cbn [cells]. rewrite map_map. apply F2_map_l, F2_map_r. intros [x m0] Hx. exists x. unfold cell_of. cbn [fst snd]. split; [reflexivity|]. split; [reflexivity|].
    unfold outz. cbn [fst snd]. pose proof (markz_iff (TNum (DInt true b)) (Special_Constants m) x T) as M. split.
    + intros [->|Sp]; [reflexivity|]. apply M in Sp. now rewrite Sp, orb_true_r.
    + intros [-> Sp]. destruct (markz _ _ x); [|reflexivity]. destruct Sp. now apply M.
  - intros q Hq. destruct (I _ (in_map fst _ _ Hq)) as (I1 & I2 & I3). rewrite Forall_forall in F. specialize (F q Hq). cbn [inside int_fits lowest] in *. unfold imax, int_holds in *. repeat split; try exact B; try discriminate; lia.
Qed.
Print Assumptions C61_in_place_refuted.
(** so that asking again scales again. *)
Theorem C61_twice_refuted a b k : int_array a -> ptype_of a = TNum (DInt true b) -> unmasked a -> 2 <= k < 2 ^ 63 ->
  (exists z, In z (ints a) /\ z < 0) -> (forall z, In z (ints a) -> int_fits (ptype_of a) (z * k) /\ ~ lowest (ptype_of a) (z * k)) ->
  let m := mkMeta (Some (SI k)) None None in
  exists r r', snd (pds4_get_scaled m a) = Ok r /\ ints r = map (fun z => z * k) (ints a) /\
    snd (pds4_get_scaled m (fst (pds4_get_scaled m a))) = Ok r' /\ ints r' = map (fun z => z * k * k) (ints a).
Proof.
  intros A Et U K (z & Hz & Nz) I m.
  assert (Sc : forall x y, Forall2 (scaled_cell k 0 None x) (cells x) (cells y) -> unmasked x -> ints y = map (fun z => z * k) (ints x)).
  { intros x y. unfold ints. rewrite map_map. unfold unmasked. assert (HR : forall c d, scaled_cell k 0 None x c d -> snd c = false -> exists w, fst c = EI w /\ fst d = EI (w * k)).
    { intros c d (w & E1 & _ & E2 & _) Hc. exists w. split; [exact E1|]. rewrite E2 by (cbn; tauto). f_equal. lia. }
    revert HR. generalize (scaled_cell k 0 None x). intros R HR H. induction H as [|c d cs ds H1 H IH]; intros Ux; [reflexivity|]. inversion Ux; subst. cbn [map]. rewrite IH by assumption.
    destruct (HR _ _ H1 H3) as (w & -> & ->). reflexivity. }
  assert (Hs : int_factor (scaling_factor m) 1 k) by now right. assert (Ho : int_factor (value_offset m) 0 0) by now left.
  assert (N : ~ (k = 1 /\ 0 = 0)) by lia. assert (Fc : forall z, special_in (Special_Constants m) z -> int_fits (ptype_of a) z) by (intros ? []).
  destruct (C61_in_place_refuted a b m k 0 A Et Hs Ho N) as (r & Hr & Pt & Ov); try assumption; try lia.
  { now exists z. }
  { intros y Hy. rewrite Z.add_0_r. destruct (I y Hy) as [I1 I2]. split; [|now split]. destruct A as [(s' & b' & E' & B) _]. rewrite Et in *. injection E' as <- <-.
    cbn [lowest int_fits] in *. unfold int_holds in *. destruct B as [-> | [-> | [-> | ->]]]; cbn in *; lia. }
  exists r. set (lft := fst (pds4_get_scaled m a)) in *.
  assert (El : ints lft = map (fun z => z * k) (ints a) /\ unmasked lft /\ int_array lft).
  { assert (P : Forall2 (fun x y => exists z, fst x = EI z /\ y = (EI (z * k), false)) (cells a) (cells lft)).
    { unfold unmasked in U. revert Ov U. clear. intros Ov. induction Ov as [|x [y1 y2] xs ys (w & E1 & E2 & _ & E4) H IH]; intros U; constructor; inversion U; subst; auto.
      exists w. cbn [fst snd] in *. split; [exact E1|]. rewrite E2, E4 by (cbn; tauto). rewrite H2, Z.add_0_r. reflexivity. }
    assert (Pi : ints lft = map (fun z => z * k) (ints a)).
    { unfold ints. rewrite map_map. clear - P. induction P as [|x y xs ys (w & E1 & ->) H IH]; [reflexivity|]. cbn [map fst]. now rewrite IH, E1. }
    split; [exact Pi|]. split.
    - unfold unmasked. clear - P. induction P as [|x y xs ys (w & _ & ->) H IH]; constructor; auto.
    - split; [rewrite Pt; apply A|]. rewrite Pt. apply Forall_forall. intros y Hy. assert (exists w, fst y = EI w) as [w Ew].
      { clear - P Hy. induction P as [|x y' xs ys (w & _ & ->) H IH]; [destruct Hy|]. destruct Hy as [<-|Hy]; [now eexists|auto]. }
      exists w. split; [exact Ew|]. assert (Iw : In w (ints lft)). { unfold ints. apply in_map_iff. exists y. now rewrite Ew. }
      rewrite Pi in Iw. apply in_map_iff in Iw as (q & <- & Iq). now apply I. }
  destruct El as (El & Ul & Al).
  destruct (C47_runs lft (Some (SI k)) None None k 0 Al) as [r' Hr']; try lia; try assumption.
  { intros E. unfold ints in El. rewrite E in El. destruct (cells a) eqn:Ec; [|discriminate]. unfold ints in Hz. rewrite Ec in Hz. destruct Hz. }
  { intros ? []. }
  { left. destruct (fold1_ok Z.min (ints lft)) as [x Ex]; [intros E; rewrite E in El; destruct (ints a); [destruct Hz|discriminate]|]. apply fold1_min in Ex as [Ix Ex]. exists x. split.
    - exists x. split; [exact Ix|]. split; [now left|now left].
    - assert (In (z * k) (ints lft)) as Iz by (rewrite El; now apply (in_map (fun z => z * k))). specialize (Ex _ Iz). nia. }
  exists r'. split; [exact Hr|]. split; [|split; [exact Hr'|]].
  - destruct (C47_exact a (Some (SI k)) None None k 0 r A Hs Ho N Hr) as (_ & F2 & _). now apply Sc.
  - destruct (C47_exact lft (Some (SI k)) None None k 0 r' Al Hs Ho N Hr') as (_ & F2 & _). rewrite (Sc lft r' F2 Ul), El, map_map. reflexivity.
Qed.
Print Assumptions C61_twice_refuted.
Example C61_in_place_meets : let a := mkP (TNum (DInt true 2)) 1 [(EI 200, false); (EI (-7), false)] in
  let m := mkMeta (Some (SI 2)) None None in
  int_array a /\ unmasked a /\ (exists z, In z (ints a) /\ z < 0) /\ (forall z, In z (ints a) -> int_fits (ptype_of a) (z * 2) /\ ~ lowest (ptype_of a) (z * 2)) /\
  fst (pds4_get_scaled m a) = mkP (TNum (DInt true 2)) 1 [(EI 400, false); (EI (-14), false)].
Proof.
  cbv zeta. split; [|split; [|split; [|split]]].
  - split; [exists true, 2; split; [reflexivity|unfold numpy_int; lia]|]. repeat constructor; cbn; eexists; (split; [reflexivity|lia]).
  - repeat constructor.
  - exists (-7). cbn. lia.
  - cbn. unfold int_holds. intros z Hz. intuition lia.
  - vm_compute. reflexivity.
Qed.
(** A get_scaled that fails can leave the loaded array multiplied. *)
Theorem C61_failed_refuted a b k j v : int_array a -> cells a <> [] -> unmasked a -> ptype_of a = TNum (DInt false b) ->
  unsigned_size k -> 0 < j -> signed_size j ->
  extremes (ints a) k j v -> (forall u, extremes (ints a) k j u -> u <= v) -> unsigned_size v -> int_fits (ptype_of a) v ->
  let m := mkMeta (Some (SI k)) (Some (SI j)) None in
  snd (pds4_get_scaled m a) = Err TypeError /\ ptype_of (fst (pds4_get_scaled m a)) = ptype_of a /\
  Forall2 (overwritten k 0 None) (cells a) (cells (fst (pds4_get_scaled m a))).
Proof.
  intros A Ne U Et Uk Pj Sj X Mv Uv Fv m. destruct (int_array_zarr a A) as (l & E & F). destruct A as [T _].
  assert (Ei : ints a = map fst l). { unfold ints. rewrite E. unfold zarr. cbn [cells]. rewrite map_map. reflexivity. }
  assert (Ec : cells a = map cell_of l) by (rewrite E; reflexivity).
  assert (Ul : Forall (fun p : Z * bool => snd p = false) l). { unfold unmasked in U. rewrite Ec in U. rewrite Forall_map in U. exact U. }
  assert (Nl : l <> []) by (intros ->; now apply Ne). unfold pds4_get_scaled, m. cbn [scaling_factor value_offset Special_Constants].
  rewrite Ei in *. rewrite E. rewrite Et in *. pose proof T as (s & b' & E' & B). injection E' as <- <-.
  assert (Kp : 0 < k) by (unfold unsigned_size in Uk; lia). rewrite Forall_forall in F.
  assert (Top : exists h, In h (map fst l) /\ (forall y, In y (map fst l) -> y <= h)). { destruct (fold1_ok Z.max (map fst l)) as [h Eh]; [now destruct l|]. apply fold1_max in Eh as [Ih Eh]. now exists h. }
  destruct Top as (h & Ih & Mh). assert (Hv : h * k + j <= v) by (apply Mv; exists h; split; [exact Ih|]; split; [now right|now right]).
  rewrite (apply_half b (ndim a) l k j B Nl Ul).
  - cbn [fst snd]. split; [reflexivity|]. split; [reflexivity|]. unfold zarr. cbn [cells]. rewrite map_map. apply F2_map_l, F2_map_r. intros [x m0] Hx. rewrite Forall_forall in Ul. specialize (Ul _ Hx). cbn in Ul. subst m0.
    exists x. unfold cell_of. cbn [fst snd]. rewrite Z.add_0_r. split; [reflexivity|]. split; [reflexivity|]. cbn. split; [intros [|[]]; discriminate|reflexivity].
  - intros p Hp. specialize (F p Hp). specialize (Mh _ (in_map fst _ _ Hp)). cbn [int_fits] in *. unfold int_holds in *. repeat split; nia.
  - exact Uk.
  - exact Pj.
  - exact Sj.
  - intros t1 Hn. apply needed_spec in Hn as (lo & mm & -> & (z & Iz & _ & Z1) & Lo & (v0 & X1 & ->) & M). specialize (M v X). specialize (Mv v0 X1) as Mv0.
    assert (P : forall u, extremes (map fst l) k j u -> 0 <= u). { intros u (y & Iy & _ & Eu). apply in_map_iff in Iy as (q & <- & Hq). specialize (F q Hq). cbn [int_fits] in F. unfold int_holds in F. nia. }
    assert (0 <= lo) as Plo. { apply in_map_iff in Iz as (q & <- & Hq). specialize (F q Hq). cbn [int_fits] in F. unfold int_holds in F. nia. }
    assert (Z.abs v0 = v) as ->. { pose proof (P v0 X1). pose proof (P v X). lia. }
    split; [now apply min_kind_unsigned|].
    pose proof (min_int_narrow lo v b false B ltac:(specialize (P v X); lia)) as W. specialize (W ltac:(cbn [int_fits] in Fv; unfold int_holds, imax in *; lia) ltac:(intros _; exact Plo)).
    pose proof (min_kind_unsigned lo v Plo Uv) as K0. destruct (min_int_type_int lo v) as [(s' & b' & E1 & _)|E1]; rewrite E1 in *; cbn [rank itemsize] in *; [exact W|discriminate].
Qed.
Print Assumptions C61_failed_refuted.
Example C61_failed_meets : let a := mkP (TNum (DInt false 2)) 1 [(EI 0, false); (EI 1, false)] in let m := mkMeta (Some (SI 200)) (Some (SI 5)) None in
  int_array a /\ unmasked a /\ unsigned_size 200 /\ signed_size 5 /\ extremes (ints a) 200 5 205 /\ (forall u, extremes (ints a) 200 5 u -> u <= 205) /\
  unsigned_size 205 /\ int_fits (ptype_of a) 205 /\ pds4_get_scaled m a = (mkP (TNum (DInt false 2)) 1 [(EI 0, false); (EI 200, false)], Err TypeError).
Proof.
  cbv zeta. split; [|split; [|split; [|split; [|split; [|split; [|split; [|split]]]]]]].
  - split; [exists false, 2; split; [reflexivity|unfold numpy_int; lia]|]. repeat constructor; cbn; eexists; (split; [reflexivity|lia]).
  - repeat constructor.
  - unfold unsigned_size. lia.
  - unfold signed_size. lia.
  - exists 1. split; [cbn; tauto|]. split; [right; cbn; intros y Hy; intuition lia|now right].
  - intros u (z & Hz & _ & Hu). cbn in Hz. intuition lia.
  - unfold unsigned_size. lia.
  - cbn. lia.
  - vm_compute. reflexivity.
Qed.
(** Doubles are always overwritten with the scaled values. *)
Theorem C61_doubles_refuted a m r : float_array DF64 a -> ~ without_scaling (scaling_factor m) (value_offset m) ->
  snd (pds4_get_scaled m a) = Ok r -> ptype_of (fst (pds4_get_scaled m a)) = TNum DF64 /\
  map fst (cells (fst (pds4_get_scaled m a))) = map fst (cells r) /\ map snd (cells (fst (pds4_get_scaled m a))) = map snd (cells a).
Proof.
  intros K Tr H. apply nontrivial_iff in Tr. unfold pds4_get_scaled in *. destruct (double_case a (scaling_factor m) (value_offset m) (or_intror (ex_intro _ DF64 K))) as (F & No & Fl).
  destruct (apply_scaling a _ _ _) as [lft x] eqn:Ea. cbn [fst snd] in *. subst x. destruct (apply_double a _ _ _ lft r F No Tr Fl Ea) as (-> & _ & L). rewrite (L (proj1 (proj2 K))). cbn [ptype_of cells].
  rewrite !map_map. repeat split; reflexivity.
Qed.
Print Assumptions C61_doubles_refuted.
Example C61_doubles_meets : let a := mkP (TNum DF64) 1 [(EF NaN, false); (EF (Fin 1), false)] in let m := mkMeta (Some (SF (1 # 2))) None None in
  float_array DF64 a /\ ~ without_scaling (scaling_factor m) (value_offset m) /\
  match cells (fst (pds4_get_scaled m a)) with [(EF NaN, false); (EF (Fin q), false)] => (q == 1 # 2)%Q | _ => False end.
Proof.
  cbv zeta. split; [|split].
  - split; [exact I|]. split; [reflexivity|]. constructor; [|constructor; [|constructor]]; eexists; (split; [reflexivity|]); intros q E; [discriminate|]. injection E as <-. apply holds_1.
  - intros [E _]. discriminate E.
  - vm_compute. reflexivity.
Qed.

(** ** C62: bit masks *)
(** Without special constants every element keeps exactly the bits the mask keeps. *)
Theorem C62_kept nn bits a : int_array a -> unmasked a -> binary bits ->
  mask_fits bits a \/ Z.of_nat (length bits) = width_of a /\ ~ some_zero bits a ->
  exists r, apply_bitmask nn None bits a = Ok r /\ ptype_of r = ptype_of a /\ ndim r = ndim a /\ Forall2 (bits_cell bits None a) (cells a) (cells r).
Proof.
  intros A U B M. destruct (int_array_zarr a A) as (l & E & F). destruct A as [T _]. assert (Ec : cells a = map cell_of l) by (rewrite E; reflexivity).
  assert (Ul : Forall (fun p : Z * bool => snd p = false) l). { unfold unmasked in U. rewrite Ec, Forall_map in U. exact U. }
  destruct (bitmask_none nn bits (ptype_of a) (ndim a) l T F B) as (f & H & K); [|exact Ul|].
  - rewrite <- E. destruct M as [M|[L Z0]]; [now left|right]. destruct (has_char _ _) eqn:H; [|reflexivity]. destruct Z0.
    apply has_char_iff in H. assert (Hw : Z.to_nat (8 * itemsize (ptype_of a)) = length bits).
    { destruct T as (s & b & Et & Nb). unfold width_of in L. rewrite Et in *. cbn [itemsize]. lia. }
    unfold zfill in H. rewrite Hw, Nat.sub_diag in H. cbn [repeat app] in H. apply in_rev, In_nth_error in H as [i Hi].
    exists (Z.of_nat i). assert (i < length (rev bits))%nat as Li by (apply nth_error_Some; now rewrite Hi). rewrite rev_length in Li. split; [lia|]. unfold mask_bit. rewrite Nat2Z.id, Hi. reflexivity.
  - rewrite <- E in H. rewrite H. eexists. split; [reflexivity|]. split; [reflexivity|]. split; [reflexivity|]. unfold zarr. cbn [cells]. rewrite Ec, map_map.
    apply F2_map_l, F2_map_r. intros p Hp. destruct (K p Hp) as [K1 K2]. rewrite <- E in K1. exists (fst p), (f (fst p)). cbn [cell_of fst snd special_in]. split; [reflexivity|]. split; [reflexivity|]. split; [reflexivity|]. split; [exact K2|]. split; [intros []|intros _; exact K1].
Qed.
Print Assumptions C62_kept.
Example C62_meets : let a := mkP (TNum (DInt true 2)) 1 [(EI 1234, false); (EI (-1), false)] in
  int_array a /\ unmasked a /\ binary $"11110000" /\ mask_fits $"11110000" a /\
  apply_bitmask true None $"11110000" a = Ok (mkP (TNum (DInt true 2)) 1 [(EI 208, false); (EI 240, false)]).
Proof.
  cbv zeta. split; [|split; [|split; [|split]]].
  - split; [exists true, 2; split; [reflexivity|unfold numpy_int; lia]|]. repeat constructor; cbn; eexists; (split; [reflexivity|lia]).
  - repeat constructor.
  - repeat (constructor; [auto|]). constructor.
  - split; [cbn; lia|]. intros b [= <-]. reflexivity.
  - vm_compute. reflexivity.
Qed.
(** With special constants, one of which occurs: the constants stay. *)
Theorem C62_special nn bits a l : int_array a -> unmasked a -> binary bits -> mask_fits bits a ->
  (forall z, special_int l z -> int_fits (ptype_of a) z) -> (exists z, In z (ints a) /\ special_int l z) ->
  exists r, apply_bitmask nn (Some l) bits a = Ok r /\ ptype_of r = ptype_of a /\ ndim r = ndim a /\ Forall2 (bits_cell bits (Some l) a) (cells a) (cells r).
Proof.
  intros A U B M Fc (z & Hz & Sz). destruct (int_array_zarr a A) as (c & E & F). destruct A as [T _]. assert (Ec : cells a = map cell_of c) by (rewrite E; reflexivity).
  assert (Ul : Forall (fun p : Z * bool => snd p = false) c). { unfold unmasked in U. rewrite Ec, Forall_map in U. exact U. }
  assert (Ei : ints a = map fst c). { unfold ints. rewrite E. unfold zarr. cbn [cells]. rewrite map_map. reflexivity. }
  rewrite Ei in Hz. apply in_map_iff in Hz as (p0 & <- & Hp0).
  destruct (bitmask_some nn bits (ptype_of a) (ndim a) c l T F B) as (f & H & K); [now rewrite <- E|exact Ul|exact Fc|now exists p0|].
  rewrite <- E in H. rewrite H. eexists. split; [reflexivity|]. split; [reflexivity|]. split; [reflexivity|]. unfold zarr. cbn [cells]. rewrite Ec, map_map.
  apply F2_map_l, F2_map_r. intros p Hp. destruct (K p Hp) as (K1 & K2 & K3). rewrite <- E in K2. exists (fst p), (f (fst p)). cbn [cell_of fst snd special_in]. split; [reflexivity|]. split; [reflexivity|]. split; [reflexivity|]. split; [exact K3|]. split; [exact K1|exact K2].
Qed.
Print Assumptions C62_special.
(** When none of the special constants occurs in the data, the array cannot be loaded with
    numpy 2.1 or later, and only its first element is masked with older ones. *)
Theorem C62_absent_refuted bits a l : int_array a -> unmasked a -> cells a <> [] -> binary bits -> mask_fits bits a -> some_zero bits a ->
  (forall z, special_int l z -> int_fits (ptype_of a) z) -> (exists z, special_int l z) -> (forall z, special_int l z -> ~ In z (ints a)) ->
  apply_bitmask true (Some l) bits a = Err ValueError /\
  exists r x y rest, apply_bitmask false (Some l) bits a = Ok r /\ cells a = x :: rest /\ cells r = y :: rest /\ bits_cell bits None a x y.
Proof.
  intros A U Ne B M Z0 Fc (z0 & S0) Ab. destruct (int_array_zarr a A) as (c & E & F). destruct A as [T _]. assert (Ec : cells a = map cell_of c) by (rewrite E; reflexivity).
  assert (Ul : Forall (fun p : Z * bool => snd p = false) c). { unfold unmasked in U. rewrite Ec, Forall_map in U. exact U. }
  assert (Ei : ints a = map fst c). { unfold ints. rewrite E. unfold zarr. cbn [cells]. rewrite map_map. reflexivity. }
  destruct (zero_char bits a T Z0) as [Hz|Hz]; [|now destruct Hz].
  assert (Hab : forall p, In p c -> ~ special_int l (fst p)). { intros p Hp Sp. apply (Ab _ Sp). rewrite Ei. now apply in_map. }
  assert (Ex : existsb (applied (ptype_of a)) l = true).
  { apply masking_iff in S0 as (k & I & V). apply existsb_exists. exists (k, CI z0). split; [exact I|]. unfold applied. cbn [fst snd]. now rewrite V, compatible_int. }
  pose proof (bitmask_absent true bits (ptype_of a) (ndim a) c l T Ul Fc Hz Hab) as H1. rewrite <- E, Ex in H1. split; [exact H1|].
  pose proof (bitmask_absent false bits (ptype_of a) (ndim a) c l T Ul Fc Hz Hab) as H2. rewrite <- E, Ex in H2.
  pose proof T as (s & b & Et & Nb). pose proof (mask_value_fits bits a s b Et Nb M) as V.
  assert (V' : int_fits (ptype_of a) (bit_value bits)) by (rewrite Et; exact V).
  pose proof (and_where_ok (ptype_of a) (ndim a) c (bit_value bits) (fun i _ => Nat.eqb i 0) c T (or_introl V')) as H3. rewrite <- E in H3. rewrite H3 in H2.
  destruct c as [|p c]; [now destruct Ne|]. cbn [length seq combine map fst snd Nat.eqb] in H2. eexists _, (cell_of p), (EI (Z.land (fst p) (bit_value bits)), false), (map cell_of c).
  split; [exact H2|]. split; [exact Ec|]. split.
  - unfold zarr. cbn [cells map]. unfold cell_of at 1. cbn [fst snd]. f_equal. inversion Ul as [|? ? _ Uc]; subst.
    assert (Tl : forall k (c : list (Z * bool)), Forall (fun p => snd p = false) c ->
      map cell_of (map (fun p : nat * (Z * bool) => (if (fst p =? 0)%nat then Z.land (fst (snd p)) (bit_value bits) else fst (snd p), false)) (combine (seq (S k) (length c)) c)) = map cell_of c).
    { clear. intros k c. revert k. induction c as [|[qz qm] c IH]; intros k Uc; [reflexivity|]. inversion Uc; subst. cbn [length seq combine map fst snd Nat.eqb]. rewrite IH by assumption. cbn in *. now subst. }
    now apply Tl.
  - exists (fst p), (Z.land (fst p) (bit_value bits)). cbn [cell_of fst snd special_in]. inversion F; subst. split; [reflexivity|]. split; [reflexivity|]. split; [reflexivity|]. split; [|split; [intros []|]].
    + rewrite Et in *. apply land_fits; [exact Nb|assumption|exact V|apply bit_value_nonneg].
    + intros _. apply land_kept.
Qed.
Print Assumptions C62_absent_refuted.
Example C62_absent_meets : let a := mkP (TNum (DInt false 1)) 1 [(EI 255, false); (EI 255, false)] in let l := [($"missing_constant", CI 0)] in
  int_array a /\ some_zero $"00001111" a /\ (exists z, special_int l z) /\ (forall z, special_int l z -> ~ In z (ints a)) /\
  apply_bitmask false (Some l) $"00001111" a = Ok (mkP (TNum (DInt false 1)) 1 [(EI 15, false); (EI 255, false)]).
Proof.
  cbv zeta. split; [|split; [|split; [|split]]].
  - split; [exists false, 1; split; [reflexivity|unfold numpy_int; lia]|]. repeat constructor; cbn; eexists; (split; [reflexivity|lia]).
  - exists 7. split; [cbn; lia|reflexivity].
  - exists 0, $"missing_constant". split; [now left|]. intros (r & E). discriminate E.
  - intros z (k & [[= <- <-]|[]] & _). cbn. lia.
  - vm_compute. reflexivity.
Qed.
(** Special constants none of which is an integer: the array cannot be loaded. *)
Theorem C62_none_refuted nn bits a l : int_array a -> unmasked a -> binary bits -> some_zero bits a -> (forall z, ~ special_int l z) ->
  apply_bitmask nn (Some l) bits a = Err AttributeError.
Proof.
  intros A U B Z0 N. destruct (int_array_zarr a A) as (c & E & F). destruct A as [T _]. assert (Ec : cells a = map cell_of c) by (rewrite E; reflexivity).
  assert (Ul : Forall (fun p : Z * bool => snd p = false) c). { unfold unmasked in U. rewrite Ec, Forall_map in U. exact U. }
  destruct (zero_char bits a T Z0) as [Hz|Hz]; [|now destruct Hz].
  pose proof (bitmask_absent nn bits (ptype_of a) (ndim a) c l T Ul) as H. rewrite <- E in H. rewrite H; [|intros z Sz; now destruct (N z)|exact Hz|intros p _; apply N].
  assert (existsb (applied (ptype_of a)) l = false) as ->; [|reflexivity]. destruct (existsb _ l) eqn:X; [|reflexivity]. exfalso.
  apply existsb_exists in X as ([k v] & I & V). unfold applied in V. cbn [fst snd] in V. apply andb_true_iff in V as [V1 V2]. apply negb_true_iff in V1.
  destruct v as [z|q|t].
  - apply (N z). apply masking_iff. now exists k.
  - destruct T as (s & b & Et & Nb). rewrite Et in V2. destruct s; discriminate V2.
  - destruct T as (s & b & Et & Nb). rewrite Et in V2. destruct s; discriminate V2.
Qed.
Print Assumptions C62_none_refuted.
Example C62_none_meets : forall z, ~ special_int [($"valid_minimum", CI 0); ($"missing_constant", CF (1 # 2))] z.
Proof. intros z (k & [[= <- <-]|[[=]|[]]] & V). apply V. now exists $"minimum". Qed.
(** A mask that keeps the sign bit of signed integers and drops another: the array cannot
    be loaded. *)
Theorem C62_signed_refuted nn bits a b : int_array a -> cells a <> [] -> binary bits -> ptype_of a = TNum (DInt true b) ->
  mask_bit bits (8 * b - 1) = true -> some_zero bits a -> apply_bitmask nn None bits a = Err OverflowError.
Proof.
  intros A Ne B Et Tb Z0. destruct (int_array_zarr a A) as (c & E & F). destruct A as [T _]. assert (Ec : cells a = map cell_of c) by (rewrite E; reflexivity).
  destruct (zero_char bits a T Z0) as [Hz|Hz]; [|now destruct Hz]. unfold apply_bitmask. rewrite Hz. cbn [negb]. rewrite bit_value_zfill, Ec. destruct T as (s & b' & Et' & Nb). rewrite Et in Et'. injection Et' as <- <-.
  destruct c as [|p c]; [now destruct Ne|]. unfold and_where. cbn [map length seq combine rmap fst snd]. rewrite Et. cbn [and_elt cell_of fst].
  destruct (in_range true b (bit_value bits)) eqn:R; [|reflexivity]. exfalso. apply (in_range_holds true b _ Nb) in R. unfold int_holds in R.
  pose proof (bit_value_bit bits (8 * b - 1) ltac:(destruct Nb as [-> | [-> | [-> | ->]]]; lia)) as Tt. rewrite Tb in Tt.
  rewrite Z.bits_above_log2 in Tt; [discriminate|apply bit_value_nonneg|]. destruct (Z.eq_dec (bit_value bits) 0) as [->|N0]; [cbn; destruct Nb as [-> | [-> | [-> | ->]]]; lia|].
  apply Z.log2_lt_pow2; [pose proof (bit_value_nonneg bits); lia|lia].
Qed.
Print Assumptions C62_signed_refuted.
Example C62_signed_meets : let a := mkP (TNum (DInt true 2)) 1 [(EI 5, false)] in
  int_array a /\ mask_bit $"1111111111110000" (8 * 2 - 1) = true /\ some_zero $"1111111111110000" a.
Proof.
  cbv zeta. split; [|split].
  - split; [exists true, 2; split; [reflexivity|unfold numpy_int; lia]|]. repeat constructor; cbn; eexists; (split; [reflexivity|lia]).
  - reflexivity.
  - exists 0. split; [cbn; lia|reflexivity].
Qed.
