(** Proofs for C46-C48, C61, C62. *)
From Coq Require Import QArith Qabs Lia Lqa.
From Verif.Base Require Import Py Val Numpy Float.
From Verif.Model Require Import Types Scaling Pds4Types.
From Verif.Spec Require Import Scaling Pds4Types.
From Verif.Proofs Require Import Scaling.
Open Scope Z_scope.

(** ** min and max *)
Lemma fold_min l : forall x, (forall y, In y (x :: l) -> fold_left Z.min l x <= y) /\ In (fold_left Z.min l x) (x :: l).
Proof.
  induction l as [|a l IH]; intros x; cbn [fold_left].
  - split; [intros y [->|[]]; lia|now left].
  - destruct (IH (Z.min x a)) as [A B]. split.
    + intros y [->|[->|H]].
      * specialize (A (Z.min y a) (or_introl eq_refl)). lia.
      * specialize (A (Z.min x y) (or_introl eq_refl)). lia.
      * apply A. now right.
    + destruct B as [B|B]; [|now right; right]. rewrite <- B. destruct (Z.min_dec x a) as [->| ->]; cbn; auto.
Qed.
Lemma fold_max l : forall x, (forall y, In y (x :: l) -> y <= fold_left Z.max l x) /\ In (fold_left Z.max l x) (x :: l).
Proof.
  induction l as [|a l IH]; intros x; cbn [fold_left].
  - split; [intros y [->|[]]; lia|now left].
  - destruct (IH (Z.max x a)) as [A B]. split.
    + intros y [->|[->|H]].
      * specialize (A (Z.max y a) (or_introl eq_refl)). lia.
      * specialize (A (Z.max x y) (or_introl eq_refl)). lia.
      * apply A. now right.
    + destruct B as [B|B]; [|now right; right]. rewrite <- B. destruct (Z.max_dec x a) as [->| ->]; cbn; auto.
Qed.
Lemma fold1_min l m : fold1 Z.min l = Ok m -> In m l /\ forall y, In y l -> m <= y.
Proof. destruct l as [|x l]; [discriminate|]. intros [= <-]. now destruct (fold_min l x). Qed.
Lemma fold1_max l m : fold1 Z.max l = Ok m -> In m l /\ forall y, In y l -> y <= m.
Proof. destruct l as [|x l]; [discriminate|]. intros [= <-]. now destruct (fold_max l x). Qed.
Lemma fold1_ok f l : l <> [] -> exists m, fold1 f l = Ok m.
Proof. destruct l; [easy|]. intros _. eexists. reflexivity. Qed.

(** ** The type chosen *)
(** strictly inside the type: its lowest number is not used *)
Definition inside (t : ptype) (z : Z) : Prop :=
  match t with TNum (DInt s b) => numpy_int b /\ Z.abs z <= imax s b /\ (s = false -> 0 <= z) | TNum _ => False | TObj => True end.
Lemma inside_fits t z : inside t z -> int_fits t z.
Proof.
  destruct t as [[s b| |]|]; cbn [inside int_fits]; try easy. intros (B & A & C). unfold int_holds, imax in *.
  destruct s; [lia|]. specialize (C eq_refl). lia.
Qed.
Lemma min_int_inside lo m z : lo <= z -> Z.abs z <= m -> inside (min_int_type lo m) z.
Proof.
  intros L A. unfold min_int_type.
  repeat match goal with |- context [if ?b then _ else _] => destruct b eqn:? end; cbn [inside]; unfold numpy_int, imax;
    try exact I; repeat split; try (intros; discriminate); rewrite ?andb_true_iff, ?Z.leb_le in *; cbn; try lia.
Qed.
Lemma min_list_inside l t : min_type_list l = Ok t -> forall z, In z l -> inside t z.
Proof.
  unfold min_type_list. destruct (fold1 Z.min l) as [lo|] eqn:El; [|discriminate]. cbn [rbind].
  destruct (fold1 Z.max l) as [hi|] eqn:Eh; [|discriminate]. cbn [rbind]. intros [= <-] z Hz.
  apply fold1_min in El as [_ El]. apply fold1_max in Eh as [_ Eh]. specialize (El z Hz). specialize (Eh z Hz).
  apply min_int_inside; lia.
Qed.
Lemma min_list_ok l : l <> [] -> exists t, min_type_list l = Ok t.
Proof.
  intros H. unfold min_type_list. destruct (fold1_ok Z.min l H) as [a ->]. destruct (fold1_ok Z.max l H) as [b ->].
  cbn [rbind]. eexists. reflexivity.
Qed.
(** a machine type has bounds *)
Lemma np_abs_id t z : inside t z -> np_abs t z = Z.abs z.
Proof.
  destruct t as [[s b| |]|]; cbn [inside np_abs]; try easy. intros (B & A & C). apply wrap_id; [exact B|].
  unfold int_holds, imax in *. destruct s; lia.
Qed.
Lemma min_array_list t l : (forall z, In z l -> inside t z) -> min_type_array t l = min_type_list l.
Proof.
  intros H. unfold min_type_array, min_type_list. destruct (fold1 Z.min l) as [lo|] eqn:El; [|reflexivity]. cbn [rbind].
  destruct (fold1 Z.max l) as [hi|] eqn:Eh; [|reflexivity]. cbn [rbind].
  apply fold1_min in El as [Il _]. apply fold1_max in Eh as [Ih _]. now rewrite !np_abs_id by auto.
Qed.
Lemma not_lowest_inside s b z : numpy_int b -> int_holds s b z -> ~ lowest (TNum (DInt s b)) z -> inside (TNum (DInt s b)) z.
Proof.
  intros B H N. cbn [inside lowest] in *. split; [exact B|]. unfold int_holds, imax in *. destruct s; lia.
Qed.
(** the type is the narrowest *)
Definition rank (t : ptype) : Z := match t with TObj => 9 | _ => itemsize t end.
Lemma min_int_narrow lo m b s : numpy_int b -> 0 <= m -> m <= imax s b -> (s = false -> 0 <= lo) -> rank (min_int_type lo m) <= b.
Proof.
  intros B P M S. unfold min_int_type, imax in *.
  destruct B as [->|[->|[->| ->]]]; destruct s; cbn in M;
  repeat match goal with |- context [if ?b then _ else _] => destruct b eqn:? end; cbn [rank itemsize]; rewrite ?andb_false_iff, ?Z.leb_gt, ?Z.leb_le in *; try lia; specialize (S eq_refl); lia.
Qed.

(** ** Arithmetic modulo the width *)
Lemma wrap_mod s b u v : (exists q, u = v + q * 2 ^ (8 * b)) -> wrap s b u = wrap s b v.
Proof.
  intros [q ->]. unfold wrap. f_equal. replace (v + q * 2 ^ (8 * b) - imin s b) with (v - imin s b + q * 2 ^ (8 * b)) by lia.
  apply Z_mod_plus_full.
Qed.
Lemma wrap_is s b z : numpy_int b -> exists q, wrap s b z = z + q * 2 ^ (8 * b).
Proof.
  intros B. unfold wrap. exists (- ((z - imin s b) / 2 ^ (8 * b))).
  assert (P : 2 ^ (8 * b) <> 0) by (destruct B as [->|[->|[->| ->]]]; discriminate).
  pose proof (Z_div_mod_eq_full (z - imin s b) (2 ^ (8 * b))). lia.
Qed.
Definition narrower (t r : ptype) : Prop :=
  match t, r with TNum (DInt _ b), TNum (DInt _ b') => numpy_int b /\ numpy_int b' /\ b <= b' | TObj, TObj => True | _, _ => False end.
Lemma wrap_wider s b s' b' z : numpy_int b -> numpy_int b' -> b <= b' -> wrap s b (wrap s' b' z) = wrap s b z.
Proof.
  intros B B' L. apply wrap_mod. destruct (wrap_is s' b' z B') as [q ->]. exists (q * 2 ^ (8 * (b' - b))).
  f_equal. rewrite <- Z.mul_assoc, <- Z.pow_add_r; [f_equal; f_equal; lia| |]; destruct B as [->|[->|[->| ->]]]; lia.
Qed.
Lemma wrap_t_wider t r z : narrower t r -> wrap_t t (wrap_t r z) = wrap_t t z.
Proof.
  destruct t as [[s b| |]|], r as [[s' b'| |]|]; cbn [narrower wrap_t]; try easy. intros (B & B' & L). now apply wrap_wider.
Qed.
Lemma wrap_t_id t z : (exists s b, t = TNum (DInt s b) /\ numpy_int b) \/ t = TObj -> int_fits t z -> wrap_t t z = z.
Proof. intros [(s & b & -> & B)| ->] H; [|reflexivity]. now apply wrap_id. Qed.
Lemma wrap_t_add t x y : wrap_t t (wrap_t t x + y) = wrap_t t (x + y).
Proof. destruct t as [[s b| |]|]; cbn [wrap_t]; try reflexivity. apply wrap_plus. Qed.
(** the types the code uses for integers *)
Definition int_type (t : ptype) : Prop := machine_int t \/ t = TObj.
Lemma min_int_type_int lo m : int_type (min_int_type lo m).
Proof.
  unfold min_int_type. repeat match goal with |- context [if ?b then _ else _] => destruct b end;
    try (left; eexists _, _; split; [reflexivity|unfold numpy_int; lia]). right. reflexivity.
Qed.
Lemma min_list_int l t : min_type_list l = Ok t -> int_type t.
Proof.
  unfold min_type_list. destruct (fold1 _ _); [|discriminate]. cbn [rbind]. destruct (fold1 _ _); [|discriminate]. cbn [rbind].
  intros [= <-]. apply min_int_type_int.
Qed.
(** an in-place operation of integers is done in a type at least as wide *)
Lemma promote_narrower s b s2 b2 : numpy_int b -> numpy_int b2 -> same_kind (promote_int s b s2 b2) (TNum (DInt s b)) = true ->
  narrower (TNum (DInt s b)) (promote_int s b s2 b2).
Proof.
  intros B B2. unfold promote_int, same_kind.
  destruct s, s2, B as [->|[->|[->| ->]]], B2 as [->|[->|[->| ->]]]; cbn; unfold numpy_int; try discriminate; intros _; lia.
Qed.
Lemma result_narrower t c : int_type t -> int_type c -> same_kind (result_type t c) t = true -> narrower t (result_type t c).
Proof.
  intros [(s & b & -> & B)| ->] [(s2 & b2 & -> & B2)| ->]; cbn [result_type].
  - now apply promote_narrower.
  - destruct s; discriminate.
  - reflexivity.
  - reflexivity.
Qed.

(** ** Special constants *)
Definition applied (t : ptype) (kc : str * special) : bool := negb (valid_key (fst kc)) && compatible t (snd kc).
Definition hit (t : ptype) (sc : list (str * special)) (x : elt) : bool :=
  existsb (fun kc => applied t kc && elt_is t (snd kc) x) sc.
Lemma mask_loop_eq t sc : forall l seen,
  mask_loop t sc l seen =
  if forallb (fun kc => implb (applied t kc) (fill_ok t (snd kc))) sc
  then Ok (map (fun p => (fst p, snd p || hit t sc (fst p))) l, seen || existsb (applied t) sc)
  else Err TypeError.
Proof.
  induction sc as [|[k c] sc IH]; intros l seen; cbn [mask_loop forallb existsb].
  - cbn [hit existsb]. rewrite orb_false_r. f_equal. f_equal. rewrite <- (map_id l) at 1. apply map_ext. intros [x m]. cbn. now rewrite orb_false_r.
  - fold (applied t (k, c)). change (negb (valid_key k) && compatible t c) with (applied t (k, c)).
    destruct (applied t (k, c)) eqn:A; cbn [implb andb snd].
    + destruct (fill_ok t c); [|reflexivity]. rewrite IH. cbn [andb orb]. rewrite orb_true_r.
      destruct (forallb _ sc); [|reflexivity]. f_equal. f_equal. rewrite map_map. apply map_ext. intros [x m]. cbn [fst snd hit existsb].
      rewrite A. cbn [andb]. now rewrite orb_assoc.
    + rewrite IH. cbn [orb]. destruct (forallb _ sc); [|reflexivity]. f_equal. f_equal. apply map_ext. intros [x m]. cbn [fst snd hit existsb].
      rewrite A. reflexivity.
Qed.
Lemma mask_constants_eq sc a :
  mask_constants sc a =
  if forallb (fun kc => implb (applied (ptype_of a) kc) (fill_ok (ptype_of a) (snd kc))) sc
  then Ok (mkP (ptype_of a) (ndim a) (map (fun p => (fst p, snd p || hit (ptype_of a) sc (fst p))) (cells a)), existsb (applied (ptype_of a)) sc)
  else Err TypeError.
Proof. unfold mask_constants. rewrite mask_loop_eq. now destruct (forallb _ sc). Qed.
Lemma valid_key_iff k : valid_key k = true <-> exists rest, k = $"valid_" ++ rest.
Proof. apply startswith_iff. Qed.
Lemma masking_iff sc c : masking sc c <-> exists k, In (k, c) sc /\ valid_key k = false.
Proof.
  unfold masking. split; intros (k & I & H); exists k; (split; [exact I|]).
  - destruct (valid_key k) eqn:E; [|reflexivity]. apply valid_key_iff in E. tauto.
  - intros N. apply valid_key_iff in N. congruence.
Qed.
Lemma compatible_int t z : compatible t (CI z) = true.
Proof.
  unfold compatible, special_kind. assert (0 <= kind t <= 3) by (destruct t as [[[] ?| |]|]; cbn; lia).
  destruct (in_range true 8 z); [|destruct (in_range false 8 z)]; destruct (kind t =? 3) eqn:E; rewrite ?orb_true_r; cbn; try reflexivity;
    rewrite ?orb_false_r, orb_true_iff; right; rewrite ?andb_true_r; apply Z.leb_le; lia.
Qed.
Lemma hit_int t sc z : machine_int t -> hit t sc (EI z) = true <-> special_int sc z.
Proof.
  intros (s & b & -> & B). unfold hit, special_int. rewrite existsb_exists, masking_iff. split.
  - intros ([k c] & I & H). unfold applied in H. cbn [fst snd] in H. rewrite !andb_true_iff, negb_true_iff in H. destruct H as ((V & C) & E).
    destruct c as [c|q|w]; cbn [elt_is] in E.
    + apply Z.eqb_eq in E. subst c. now exists k.
    + exfalso. unfold compatible in C. cbn [special_kind kind] in C. destruct s; discriminate.
    + discriminate.
  - intros (k & I & V). exists (k, CI z). split; [exact I|]. unfold applied. cbn [fst snd elt_is]. rewrite V, compatible_int, Z.eqb_refl. reflexivity.
Qed.
Lemma fill_int t sc : machine_int t ->
  forallb (fun kc => implb (applied t kc) (fill_ok t (snd kc))) sc = true <-> (forall z, special_int sc z -> int_fits t z).
Proof.
  intros (s & b & -> & B). rewrite forallb_forall. unfold special_int. split.
  - intros H z M. apply masking_iff in M as (k & I & V). specialize (H _ I). unfold applied in H. cbn [fst snd] in H.
    rewrite V, compatible_int in H. cbn in H. apply in_range_holds; assumption.
  - intros H [k c] I. unfold applied. cbn [fst snd]. destruct (valid_key k) eqn:V; [reflexivity|]. cbn [negb andb].
    destruct c as [z|q|w]; [|now rewrite implb_true_r|now rewrite implb_true_r].
    rewrite compatible_int. cbn [implb fill_ok]. apply in_range_holds; [exact B|]. apply (H z). apply masking_iff. now exists k.
Qed.
Lemma F2_map_r {A B} (R : A -> B -> Prop) f l : (forall x, In x l -> R x (f x)) -> Forall2 R l (map f l).
Proof. induction l as [|x l IH]; intros H; constructor; [apply H; now left|]. apply IH. intros y Hy. apply H. now right. Qed.
Lemma F2_map_l {A B C} (R : B -> C -> Prop) (f : A -> B) l l' : Forall2 (fun x => R (f x)) l l' -> Forall2 R (map f l) l'.
Proof. induction 1; constructor; assumption. Qed.

Lemma hit_float d sc v : is_float d -> (forall c, masking sc c -> match c with CI z => (Qabs (round_to d (inject_Z z)) <= fmax d)%Q | CF q => (Qabs (round_to d q) <= fmax d)%Q | CStr _ => True end) ->
  hit (TNum d) sc (EF v) = true <-> special_float d sc v.
Proof.
  intros F H. unfold hit. rewrite existsb_exists.
  assert (Hq : forall q, (Qabs (round_to d q) <= fmax d)%Q -> num_eqb v (fconv d q) = true <-> exists r, v = Fin r /\ (r == round_to d q)%Q).
  { intros q L. unfold fconv. apply Qle_bool_iff in L. rewrite L. destruct v as [r| |n]; cbn [num_eqb].
    - rewrite Qeq_bool_iff. split; [intros E; now exists r|intros (r' & [= ->] & E); exact E].
    - split; [discriminate|intros (r & [=] & _)].
    - split; [discriminate|intros (r & [=] & _)]. }
  split.
  - intros ([k c] & I & E). unfold applied in E. cbn [fst snd] in E. rewrite !andb_true_iff, negb_true_iff in E. destruct E as ((V & C) & E).
    assert (M : masking sc c) by (apply masking_iff; now exists k). pose proof (H c M) as L.
    destruct c as [z|q|w]; cbn [elt_is] in E; [| |discriminate].
    + apply Hq in E; [|exact L]. exists (CI z), (inject_Z z). split; [exact M|]. split; [right; now exists z|exact E].
    + apply Hq in E; [|exact L]. exists (CF q), q. split; [exact M|]. split; [now left|exact E].
  - intros (c & q & M & Ec & E). pose proof (H c M) as L. apply masking_iff in M as (k & I & V). exists (k, c). split; [exact I|].
    unfold applied. cbn [fst snd]. rewrite V. destruct Ec as [->|(z & -> & ->)]; cbn [elt_is negb andb].
    + apply Hq in E; [|exact L]. rewrite E, andb_true_r. unfold compatible. destruct d; [destruct F|reflexivity|reflexivity].
    + apply Hq in E; [|exact L]. now rewrite E, compatible_int.
Qed.
Lemma fill_float d sc : is_float d -> forallb (fun kc => implb (applied (TNum d) kc) (fill_ok (TNum d) (snd kc))) sc = true.
Proof. intros F. apply forallb_forall. intros [k c] _. replace (fill_ok (TNum d) (snd (k, c))) with true; [apply implb_true_r|]. destruct d; [destruct F|reflexivity|reflexivity]. Qed.

(** ** Arrays of integers, as lists of integers *)
Definition cell_of (p : Z * bool) : elt * bool := (EI (fst p), snd p).
Definition zarr (t : ptype) (n : nat) (l : list (Z * bool)) : parr := mkP t n (map cell_of l).
Lemma int_array_zarr a : int_array a -> exists l, a = zarr (ptype_of a) (ndim a) l /\ Forall (fun p => int_fits (ptype_of a) (fst p)) l.
Proof.
  intros [_ F]. destruct a as [t n cs]. unfold zarr. cbn [ptype_of ndim cells] in *.
  assert (exists l, cs = map cell_of l /\ Forall (fun p => int_fits t (fst p)) l) as (l & -> & H); [|now exists l].
  induction F as [|[x m] cs (z & E & H) F IH]; [now exists []|]. cbn [fst] in E. subst x. destruct IH as (l & -> & IH).
  exists ((z, m) :: l). split; [reflexivity|now constructor].
Qed.
Lemma zarr_masked t n l : is_masked (zarr t n l) = existsb snd l.
Proof. unfold is_masked, zarr. cbn [cells]. induction l as [|p l IH]; [reflexivity|]. cbn [map existsb cell_of snd]. now rewrite IH. Qed.
Lemma zarr_ints t n l : map (fun c => elt_z (fst c)) (cells (zarr t n l)) = map fst l.
Proof. unfold zarr. cbn [cells]. rewrite map_map. reflexivity. Qed.
Lemma factor_scaling s k : int_factor s 1 k -> no_scaling s = (k =? 1).
Proof. intros [[-> ->]| ->]; [reflexivity|]. cbn [no_scaling scalar_q]. apply Bool.eq_iff_eq_true. rewrite Qeq_bool_iff, Z.eqb_eq. unfold Qeq. cbn. lia. Qed.
Lemma factor_offset s k : int_factor s 0 k -> no_offset s = (k =? 0).
Proof. intros [[-> ->]| ->]; [reflexivity|]. cbn [no_offset scalar_q]. apply Bool.eq_iff_eq_true. rewrite Qeq_bool_iff, Z.eqb_eq. unfold Qeq. cbn. lia. Qed.
Lemma factor_int s d k : int_factor s d k -> sf s = false.
Proof. intros [[-> _]| ->]; reflexivity. Qed.
Lemma inside_between t x y z : inside t x -> inside t y -> x <= z <= y -> inside t z.
Proof.
  destruct t as [[s b| |]|]; cbn [inside]; try easy. intros (B & X & Sx) (_ & Y & Sy) L. split; [exact B|].
  split; [lia|]. intros E. specialize (Sx E). lia.
Qed.
Lemma inside_scaled t lo hi k j z : inside t (lo * k + j) -> inside t (hi * k + j) -> lo <= z <= hi -> inside t (z * k + j).
Proof.
  intros A B [L H]. destruct (Z_le_gt_dec 0 k).
  - apply (inside_between t (lo * k + j) (hi * k + j)); [assumption..|]. nia.
  - apply (inside_between t (hi * k + j) (lo * k + j)); [assumption..|]. nia.
Qed.
Lemma inside_wider t t' z : machine_int t' -> kind t' = kind t -> itemsize t <= itemsize t' -> inside t z -> inside t' z.
Proof.
  intros (s' & b' & -> & B') K W. destruct t as [[s b| |]|]; cbn [inside]; try easy; [|exfalso; now destruct s']. cbn [kind itemsize] in *.
  assert (s = s') by (destruct s, s'; try reflexivity; discriminate). subst s'. intros (B & A & C). split; [exact B'|]. split; [|exact C].
  etransitivity; [exact A|]. unfold imax. assert (0 < b) by (destruct B as [->|[->|[->| ->]]]; lia).
  destruct s.
  - pose proof (Z.pow_le_mono_r 2 (8 * b - 1) (8 * b' - 1) ltac:(lia) ltac:(lia)). lia.
  - pose proof (Z.pow_le_mono_r 2 (8 * b) (8 * b') ltac:(lia) ltac:(lia)). lia.
Qed.
Lemma ptype_eqb_eq t t' : machine_int t -> int_type t' -> ptype_eqb t t' = true -> t = t'.
Proof.
  intros (s & b & -> & B) [(s' & b' & -> & B')| ->]; unfold ptype_eqb; rewrite andb_true_iff, !Z.eqb_eq; cbn [kind itemsize].
  - intros [K ->]. destruct s, s'; try discriminate; reflexivity.
  - intros [K _]. destruct s; discriminate.
Qed.
Lemma pastype_ints t t' n l : int_type t -> int_type t' -> Forall (fun p => inside t' (fst p)) l -> pastype t' (zarr t n l) = Ok (zarr t' n l).
Proof.
  intros T T' F. unfold pastype, zarr. cbn [cells ptype_of ndim].
  assert (E : rmap (fun c => do x <- cast_elt t t' (fst c); Ok (x, snd c)) (map cell_of l) = Ok (map cell_of l)).
  { apply rmap_spec. apply F2_map_l, F2_map_r. intros p Hp. rewrite Forall_forall in F. specialize (F p Hp). cbn [cell_of fst snd].
    destruct T' as [(s & b & -> & B)| ->]; cbn [cast_elt]; [|reflexivity].
    apply inside_fits in F. cbn [int_fits] in F. rewrite (proj2 (in_range_holds s b (fst p) B) F), (wrap_id s b (fst p) B F). now destruct t. }
  rewrite E. reflexivity.
Qed.
Lemma scaled_type_ints a s o k j l : machine_int (ptype_of a) -> a = zarr (ptype_of a) (ndim a) l -> int_factor s 1 k -> int_factor o 0 j -> ~ (k = 1 /\ j = 0) ->
  scaled_type a s o true = do lo <- fold1 Z.min (map fst l); do hi <- fold1 Z.max (map fst l);
    min_type_list [lo; hi; lo * k + j; hi * k + j].
Proof.
  intros (si & b & Et & B) Ea Hs Ho N. unfold scaled_type. rewrite (factor_scaling s k Hs), (factor_offset o j Ho), (factor_int s 1 k Hs), (factor_int o 0 j Ho).
  assert (E : (k =? 1) && (j =? 0) = false).
  { apply andb_false_iff. destruct (k =? 1) eqn:E1; [right|now left]. apply Z.eqb_eq in E1. apply Z.eqb_neq. tauto. }
  rewrite E. assert (float_type (ptype_of a) = false) as ->. { rewrite Et. now destruct si. }
  cbn [orb]. assert (is_integer_data a = true) as ->. { unfold is_integer_data. now rewrite Et. }
  assert (Ed : map (fun c => elt_z (fst c)) (cells a) = map fst l) by (rewrite Ea; apply zarr_ints). cbv zeta. rewrite Ed. destruct (fold1 Z.min (map fst l)) as [lo|]; [|reflexivity]. cbn [rbind].
  destruct (fold1 Z.max (map fst l)) as [hi|]; [|reflexivity]. cbn [rbind].
  assert (Es : match s with Some (SI z) => z | _ => 1 end = k) by (destruct Hs as [[-> ->]| ->]; reflexivity).
  assert (Eo : match o with Some (SI z) => z | _ => 0 end = j) by (destruct Ho as [[-> ->]| ->]; reflexivity).
  now rewrite Es, Eo.
Qed.
Lemma scaled_type_inside l k j t :
  (do lo <- fold1 Z.min (map fst l); do hi <- fold1 Z.max (map fst l); min_type_list [lo; hi; lo * k + j; hi * k + j]) = Ok t ->
  int_type t /\ forall p : Z * bool, In p l -> inside t (fst p) /\ inside t (fst p * k + j).
Proof.
  destruct (fold1 Z.min (map fst l)) as [lo|] eqn:El; [|discriminate]. cbn [rbind].
  destruct (fold1 Z.max (map fst l)) as [hi|] eqn:Eh; [|discriminate]. cbn [rbind]. intros H.
  split; [exact (min_list_int _ _ H)|]. pose proof (min_list_inside _ _ H) as I.
  assert (I1 : inside t lo) by (apply I; cbn; tauto). assert (I2 : inside t hi) by (apply I; cbn; tauto).
  assert (I3 : inside t (lo * k + j)) by (apply I; cbn; tauto). assert (I4 : inside t (hi * k + j)) by (apply I; cbn; tauto).
  apply fold1_min in El as [_ El]. apply fold1_max in Eh as [_ Eh]. intros p Hp. apply (in_map fst) in Hp. specialize (El _ Hp). specialize (Eh _ Hp).
  split; [apply (inside_between t lo hi)|apply (inside_scaled t lo hi)]; auto.
Qed.
Lemma adjust_ints t n l s o k j m0 copied : machine_int t -> int_factor s 1 k -> int_factor o 0 j -> ~ (k = 1 /\ j = 0) ->
  adjust (zarr t n l) s o = Ok (m0, copied) ->
  exists t', m0 = zarr t' n l /\ int_type t' /\ (copied = false -> t' = t) /\
    forall p, In p l -> inside t' (fst p) /\ inside t' (fst p * k + j).
Proof.
  intros T Hs Ho N. unfold adjust. cbn [ptype_of]. rewrite (scaled_type_ints (zarr t n l) s o k j l T eq_refl Hs Ho N).
  destruct (rbind (fold1 Z.min (map fst l)) _) as [t1|] eqn:E; [|discriminate]. cbn [rbind]. change (ptype_of (zarr t n l)) with t. apply scaled_type_inside in E as [T1 I1].
  destruct (_ && _) eqn:C.
  - assert (F : Forall (fun p => inside t1 (fst p)) l) by (apply Forall_forall; intros p Hp; apply I1; exact Hp).
    rewrite (pastype_ints t t1 n l (or_introl T) T1 F). cbn [rbind]. intros [= <- <-]. exists t1. split; [reflexivity|]. split; [exact T1|]. split; [discriminate|exact I1].
  - intros [= <- <-]. exists t. split; [reflexivity|]. split; [now left|]. split; [reflexivity|].
    rewrite andb_false_iff, andb_false_iff, orb_false_iff, !negb_false_iff in C.
    destruct C as [[C|C]|[C1 C2]].
    + apply (ptype_eqb_eq t t1 T T1) in C. subst t1. exact I1.
    + destruct T as (si & b & -> & _). cbn [kind] in C. now destruct si.
    + apply Z.eqb_eq in C1. apply Z.ltb_ge in C2. intros p Hp. destruct (I1 p Hp). split; (apply (inside_wider t1 t); [exact T|exact C1|lia|assumption]).
Qed.
Definition stepz (t : ptype) (o : op) (k : Z) (p : Z * bool) : Z * bool := if snd p then p else (wrap_t t (zop o (fst p) k), snd p).
Lemma inplace_ints t n l o k r : int_type t -> inplace_op o (zarr t n l) (SI k) = Ok r -> r = zarr t n (map (stepz t o k) l).
Proof.
  intros T. unfold inplace_op. destruct (min_type_list [k]) as [tc|] eqn:E; [|discriminate]. cbn [rbind ptype_of].
  apply min_list_int in E. destruct (same_kind _ _) eqn:Sk; [|discriminate]. intros [= <-]. unfold zarr. f_equal. cbn [cells]. rewrite !map_map.
  apply map_ext. intros [z m]. unfold stepz. cbn [cell_of fst snd]. destruct m; [reflexivity|]. unfold cell_of. cbn [elt_op fst snd].
  f_equal. f_equal. apply wrap_t_wider. apply result_narrower; assumption.
Qed.
Lemma wrap_t_fits t z : int_type t -> int_fits t (wrap_t t z).
Proof.
  intros [(s & b & -> & B)| ->]; cbn [wrap_t int_fits]; [|exact I]. unfold int_holds, wrap, imin.
  pose proof (Z.mod_pos_bound (z - (if s then - 2 ^ (8 * b - 1) else 0)) (2 ^ (8 * b))) as H.
  assert (2 ^ (8 * b) = 2 ^ (8 * b - 1) * 2 /\ 0 < 2 ^ (8 * b)) as [E P].
  { destruct B as [->|[->|[->| ->]]]; split; reflexivity. }
  specialize (H P). destruct s; lia.
Qed.
Lemma opt_op_ints t n l o s d k skip r : int_type t -> int_factor s d k -> (forall p, In p l -> int_fits t (fst p)) ->
  skip = (k =? d) -> (forall z, zop o z d = z) -> opt_op o skip s (zarr t n l) = Ok r -> r = zarr t n (map (stepz t o k) l).
Proof.
  intros T Hs F -> D. unfold opt_op. assert (Same : k = d -> zarr t n (map (stepz t o k) l) = zarr t n l).
  { intros ->. unfold zarr. f_equal. f_equal. rewrite <- (map_id l) at 2. apply map_ext_in. intros [z m] Hp. unfold stepz. cbn [fst snd].
    destruct m; [reflexivity|]. rewrite D. specialize (F _ Hp). cbn [fst] in F. now rewrite wrap_t_id. }
  destruct (k =? d) eqn:E.
  - apply Z.eqb_eq in E. intros [= <-]. symmetry. now apply Same.
  - destruct Hs as [[-> ->]| ->]; [rewrite Z.eqb_refl in E; discriminate|]. now apply inplace_ints.
Qed.
Definition scalez (k j : Z) (p : Z * bool) : Z * bool := if snd p then p else (fst p * k + j, snd p).
Lemma steps_ints t n l s o k j m1 m2 : int_type t -> int_factor s 1 k -> int_factor o 0 j ->
  (forall p, In p l -> inside t (fst p) /\ inside t (fst p * k + j)) ->
  opt_op OMul (no_scaling s) s (zarr t n l) = Ok m1 -> opt_op OAdd (no_offset o) o m1 = Ok m2 -> m2 = zarr t n (map (scalez k j) l).
Proof.
  intros T Hs Ho I H1 H2.
  apply (opt_op_ints t n l OMul s 1 k) in H1; [|exact T|exact Hs| |now apply factor_scaling|intros z; apply Z.mul_1_r].
  2: { intros p Hp. apply inside_fits, I, Hp. }
  subst m1. apply (opt_op_ints t n _ OAdd o 0 j) in H2; [|exact T|exact Ho| |now apply factor_offset|intros z; apply Z.add_0_r].
  2: { intros p Hp. apply in_map_iff in Hp as (q & <- & Hq). unfold stepz. destruct (snd q); [apply inside_fits, I, Hq|]. now apply wrap_t_fits. }
  subst m2. unfold zarr. f_equal. f_equal. rewrite map_map. apply map_ext_in. intros [z m] Hp. unfold stepz, scalez. cbn [fst snd].
  destruct m; [reflexivity|]. cbn [fst snd zop]. rewrite wrap_t_add. f_equal. destruct (I _ Hp) as [_ In2]. apply wrap_t_id; [exact T|now apply inside_fits].
Qed.
Lemma downcast_ints t n l r : int_type t -> (forall p, In p l -> inside t (fst p)) -> downcast (zarr t n l) = Ok r ->
  exists t', r = zarr t' n l /\ forall p, In p l -> inside t' (fst p).
Proof.
  intros T I. unfold downcast. destruct (is_integer_data _).
  - cbn [ptype_of]. rewrite zarr_ints, min_array_list.
    2: { intros z Hz. apply in_map_iff in Hz as (p & <- & Hp). now apply I. }
    destruct (min_type_list _) as [t'|] eqn:E; [|discriminate]. cbn [rbind].
    assert (I' : forall p, In p l -> inside t' (fst p)). { intros p Hp. apply (min_list_inside _ _ E). now apply in_map. }
    rewrite pastype_ints; [|exact T|exact (min_list_int _ _ E)|now apply Forall_forall]. intros [= <-]. now exists t'.
  - intros [= <-]. now exists t.
Qed.
Lemma downcast_total t n l : int_type t -> (forall p, In p l -> inside t (fst p)) -> l <> [] -> exists r, downcast (zarr t n l) = Ok r.
Proof.
  intros T I Ne. unfold downcast. destruct (is_integer_data _); [|now eexists].
  cbn [ptype_of]. rewrite zarr_ints, min_array_list.
  2: { intros z Hz. apply in_map_iff in Hz as (p & <- & Hp). now apply I. }
  destruct (min_list_ok (map fst l)) as [t' E]; [now destruct l|]. rewrite E. cbn [rbind].
  assert (I' : forall p, In p l -> inside t' (fst p)). { intros p Hp. apply (min_list_inside _ _ E). now apply in_map. }
  rewrite pastype_ints; [now eexists|exact T|exact (min_list_int _ _ E)|now apply Forall_forall].
Qed.

(** ** Scaling of integers *)
Definition needed (l : list (Z * bool)) (k j : Z) : res ptype :=
  do lo <- fold1 Z.min (map fst l); do hi <- fold1 Z.max (map fst l); min_type_list [lo; hi; lo * k + j; hi * k + j].
Lemma needed_ok l k j : l <> [] -> exists t, needed l k j = Ok t.
Proof.
  intros N. unfold needed. destruct (fold1_ok Z.min (map fst l)) as [lo ->]; [now destruct l|]. destruct (fold1_ok Z.max (map fst l)) as [hi ->]; [now destruct l|].
  cbn [rbind]. now apply min_list_ok.
Qed.
Lemma adjust_total t n l s o k j : machine_int t -> int_factor s 1 k -> int_factor o 0 j -> ~ (k = 1 /\ j = 0) -> l <> [] ->
  exists t1 t' copied, needed l k j = Ok t1 /\ adjust (zarr t n l) s o = Ok (zarr t' n l, copied) /\ kind t' = kind t1 /\
    (kind t = kind t1 -> itemsize t1 <= itemsize t -> copied = false).
Proof.
  intros T Hs Ho N Ne. unfold adjust. rewrite (scaled_type_ints (zarr t n l) s o k j l T eq_refl Hs Ho N). fold (needed l k j).
  destruct (needed_ok l k j Ne) as [t1 E]. rewrite E. cbn [rbind]. change (ptype_of (zarr t n l)) with t. apply scaled_type_inside in E as [T1 I1].
  destruct (_ && _) eqn:C.
  - assert (F : Forall (fun p => inside t1 (fst p)) l) by (apply Forall_forall; intros p Hp; apply I1; exact Hp).
    rewrite (pastype_ints t t1 n l (or_introl T) T1 F). cbn [rbind]. exists t1, t1, true. split; [reflexivity|]. split; [reflexivity|]. split; [reflexivity|].
    intros K W. rewrite !andb_true_iff, orb_true_iff, !negb_true_iff, !Z.eqb_neq, Z.ltb_lt in C. destruct C as [_ [C|C]]; lia.
  - exists t1, t, false. split; [reflexivity|]. split; [reflexivity|]. split; [|reflexivity].
    rewrite andb_false_iff, andb_false_iff, orb_false_iff, !negb_false_iff in C.
    destruct C as [[C|C]|[C1 C2]].
    + apply (ptype_eqb_eq t t1 T T1) in C. now subst t1.
    + destruct T as (si & b & -> & _). cbn [kind] in C. now destruct si.
    + now apply Z.eqb_eq in C1.
Qed.
Definition markz (t : ptype) (sc : option (list (str * special))) (z : Z) : bool := match sc with Some l => hit t l (EI z) | None => false end.
Lemma markz_iff t sc z : machine_int t -> markz t sc z = true <-> special_in sc z.
Proof. intros T. destruct sc as [l|]; cbn [markz special_in]; [now apply hit_int|split; [discriminate|tauto]]. Qed.
Definition mark (t : ptype) (sc : option (list (str * special))) (p : Z * bool) : Z * bool := (fst p, snd p || markz t sc (fst p)).
Lemma mark_eq t n l sc : machine_int t -> (forall z, special_in sc z -> int_fits t z) ->
  (match sc with Some c => do r <- mask_constants c (zarr t n l); Ok (fst r) | None => Ok (zarr t n l) end) = Ok (zarr t n (map (mark t sc) l)).
Proof.
  intros T F. destruct sc as [c|].
  - rewrite mask_constants_eq. change (ptype_of (zarr t n l)) with t. rewrite (proj2 (fill_int t c T)); [|exact F]. cbn [rbind fst]. f_equal. unfold zarr. cbn [cells]. f_equal.
    rewrite !map_map. apply map_ext. intros [z m]. reflexivity.
  - f_equal. unfold zarr. f_equal. f_equal. rewrite <- (map_id l) at 1. apply map_ext. intros [z m]. unfold mark. cbn. now rewrite orb_false_r.
Qed.
Lemma mark_fst t sc l : map fst (map (mark t sc) l) = map fst l.
Proof. rewrite map_map. apply map_ext. now intros []. Qed.
Lemma put_values_eq t n l f t' n' : (forall p, In p l -> True) ->
  put_values (zarr t n l) (zarr t' n' (map f l)) = zarr t n (map (fun p => (fst (f p), snd p)) l).
Proof.
  intros _. unfold put_values, zarr. cbn [cells ptype_of ndim]. f_equal. induction l as [|p l IH]; [reflexivity|].
  cbn [map combine]. rewrite IH. reflexivity.
Qed.
Definition outz (t : ptype) (sc : option (list (str * special))) (k j : Z) (p : Z * bool) : Z := if snd p || markz t sc (fst p) then fst p else fst p * k + j.
Definition keep_mask (sc : option (list (str * special))) (l : list (Z * bool)) : bool := match sc with Some _ => existsb snd l | None => false end.
Definition outm (t : ptype) (sc : option (list (str * special))) (l : list (Z * bool)) (p : Z * bool) : bool :=
  if keep_mask sc l then snd p else snd p || markz t sc (fst p).
Lemma scaled_marked t sc k j l : map (scalez k j) (map (mark t sc) l) = map (fun p => (outz t sc k j p, snd p || markz t sc (fst p))) l.
Proof. rewrite map_map. apply map_ext. intros [z m]. unfold scalez, mark, outz. cbn [fst snd]. now destruct (m || markz t sc z). Qed.
Lemma apply_ints t n l s o k j sc lft r : machine_int t -> Forall (fun p => int_fits t (fst p)) l ->
  int_factor s 1 k -> int_factor o 0 j -> ~ (k = 1 /\ j = 0) -> apply_scaling (zarr t n l) s o sc = (lft, Ok r) ->
  exists t', r = zarr t' n (map (fun p => (outz t sc k j p, outm t sc l p)) l) /\ (forall p, In p l -> inside t' (outz t sc k j p)) /\
    (lft = zarr t n l \/ lft = zarr t n (map (fun p => (outz t sc k j p, snd p)) l) /\ forall p, In p l -> inside t (fst p) /\ inside t (fst p * k + j)).
Proof.
  intros T F Hs Ho N. unfold apply_scaling. rewrite (factor_scaling s k Hs), (factor_offset o j Ho).
  assert (E : (k =? 1) && (j =? 0) = false).
  { apply andb_false_iff. destruct (k =? 1) eqn:E1; [right|now left]. apply Z.eqb_eq in E1. apply Z.eqb_neq. tauto. }
  rewrite E. clear E.
  destruct (match sc with Some c => do r <- mask_constants c (zarr t n l); Ok (fst r) | None => Ok (zarr t n l) end) as [m|e] eqn:Em; [|discriminate].
  assert (Em' : m = zarr t n (map (mark t sc) l)).
  { rewrite mark_eq in Em; [now injection Em as <-|exact T|]. destruct sc as [c|]; [|intros z []]. rewrite mask_constants_eq in Em.
    change (ptype_of (zarr t n l)) with t in Em. destruct (forallb _ c) eqn:Ef; [|discriminate]. now apply (proj1 (fill_int t c T)). }
  subst m. destruct (adjust _ s o) as [[m0 copied]|e] eqn:Ea; [|discriminate].
  apply (adjust_ints t n _ s o k j) in Ea as (t0 & -> & T0 & C0 & I0); [|assumption..].
  rewrite <- (factor_scaling s k Hs), <- (factor_offset o j Ho). destruct (opt_op OMul _ s _) as [m1|] eqn:E1; [|discriminate].
  destruct (opt_op OAdd _ o m1) as [m2|] eqn:E2; [|discriminate].
  pose proof (steps_ints t0 n _ s o k j m1 m2 T0 Hs Ho I0 E1 E2) as ->. clear E1 E2 m1. rewrite scaled_marked.
  assert (I1 : forall p, In p l -> inside t0 (outz t sc k j p)).
  { intros p Hp. destruct (I0 (mark t sc p) (in_map _ _ _ Hp)) as [A B]. cbn [mark fst] in A, B. unfold outz. now destruct (_ || _). }
  destruct (downcast _) as [m3|] eqn:E3; [|discriminate].
  apply downcast_ints in E3 as (t' & -> & I3); [|exact T0|].
  2: { intros p Hp. apply in_map_iff in Hp as (q & <- & Hq). now apply I1. }
  cbn [rbind]. intros H. apply pair_equal_spec in H as [Hl Hr]. injection Hr as Hr. exists t'. split; [|split].
  - subst r. unfold outm. destruct sc as [c|]; cbn [keep_mask]; [|reflexivity]. rewrite zarr_masked.
    destruct (existsb snd l); [|reflexivity]. unfold set_mask, zarr. cbn [cells ptype_of ndim]. f_equal. rewrite !map_map. clear. cbn [cell_of fst snd].
    induction l as [|p l IH]; [reflexivity|]. cbn [map combine]. now rewrite IH.
  - intros p Hp. apply (I3 (outz t sc k j p, snd p || markz t sc (fst p))). apply in_map_iff. now exists p.
  - destruct copied; [left; now symmetry|right]. specialize (C0 eq_refl). subst t0. rewrite <- Hl. split.
    + now apply (put_values_eq t n l (fun p => (outz t sc k j p, snd p || markz t sc (fst p)))).
    + intros p Hp. exact (I0 (mark t sc p) (in_map _ _ _ Hp)).
Qed.
Lemma extremes_iff l k j lo hi v : fold1 Z.min l = Ok lo -> fold1 Z.max l = Ok hi -> extremes l k j v <-> In v [lo; hi; lo * k + j; hi * k + j].
Proof.
  intros El Eh. apply fold1_min in El as [Il El]. apply fold1_max in Eh as [Ih Eh]. unfold extremes. cbn [In]. split.
  - intros (z & Iz & [H|H] & V).
    + assert (z = lo) by (specialize (H lo Il); specialize (El z Iz); lia). subst z. destruct V; subst; tauto.
    + assert (z = hi) by (specialize (H hi Ih); specialize (Eh z Iz); lia). subst z. destruct V; subst; tauto.
  - intros [<-|[<-|[<-|[<-|[]]]]]; [exists lo|exists hi|exists lo|exists hi]; split; auto.
Qed.
Lemma needed_spec l k j t1 : needed l k j = Ok t1 -> exists lo m, t1 = min_int_type lo m /\
  extremes (map fst l) k j lo /\ (forall v, extremes (map fst l) k j v -> lo <= v) /\
  (exists v, extremes (map fst l) k j v /\ m = Z.abs v) /\ (forall v, extremes (map fst l) k j v -> Z.abs v <= m).
Proof.
  unfold needed. destruct (fold1 Z.min (map fst l)) as [lo|] eqn:El; [|discriminate]. cbn [rbind].
  destruct (fold1 Z.max (map fst l)) as [hi|] eqn:Eh; [|discriminate]. cbn [rbind]. pose proof (fun v => extremes_iff (map fst l) k j lo hi v El Eh) as X.
  unfold min_type_list. destruct (fold1 Z.min [lo; _; _; _]) as [a|] eqn:Ea; [|discriminate]. cbn [rbind].
  destruct (fold1 Z.max [lo; _; _; _]) as [b|] eqn:Eb; [|discriminate]. cbn [rbind]. intros [= <-].
  apply fold1_min in Ea as [Ia Ea]. apply fold1_max in Eb as [Ib Eb].
  exists a, (Z.max (Z.abs a) (Z.abs b)). split; [reflexivity|]. split; [now apply X|]. split; [intros v V; now apply Ea, X|]. split.
  - destruct (Z.max_dec (Z.abs a) (Z.abs b)) as [E|E]; rewrite E; [exists a|exists b]; (split; [now apply X|reflexivity]).
  - intros v V. apply X in V. specialize (Ea v V). specialize (Eb v V). lia.
Qed.
(** which types are signed *)
Lemma min_kind_signed lo m : lo < 0 \/ signed_size m \/ 2 ^ 64 <= m -> 1 <= kind (min_int_type lo m).
Proof.
  intros H. unfold min_int_type, signed_size in *.
  repeat match goal with |- context [if ?b then _ else _] => destruct b eqn:? end; cbn [kind]; rewrite ?andb_true_iff, ?Z.leb_gt, ?Z.leb_le in *; lia.
Qed.
Lemma min_kind_unsigned lo m : 0 <= lo -> unsigned_size m -> kind (min_int_type lo m) = 0.
Proof.
  intros L H. unfold min_int_type, unsigned_size in *.
  repeat match goal with |- context [if ?b then _ else _] => destruct b eqn:? end; cbn [kind]; rewrite ?andb_false_iff, ?Z.leb_gt, ?Z.leb_le in *; lia.
Qed.
Lemma one_type k : min_type_list [k] = Ok (min_int_type k (Z.abs k)).
Proof. unfold min_type_list. cbn [fold1 fold_left rbind]. now rewrite Z.max_id. Qed.
Lemma signed_op_ok o t n l k : int_type t -> 1 <= kind t -> Z.abs k < 2 ^ 63 -> exists r, inplace_op o (zarr t n l) (SI k) = Ok r.
Proof.
  intros T K A. unfold inplace_op. rewrite one_type. cbn [rbind]. change (ptype_of (zarr t n l)) with t.
  assert (same_kind (result_type t (min_int_type k (Z.abs k))) t = true) as ->; [|now eexists].
  destruct T as [(s & b & -> & B)| ->]; [|reflexivity]. destruct s; [|cbn in K; lia].
  assert (exists s' b', min_int_type k (Z.abs k) = TNum (DInt s' b') /\ numpy_int b' /\ (s' = false -> b' < 8)) as (s' & b' & -> & B' & S').
  { unfold min_int_type. repeat match goal with |- context [if ?b then _ else _] => destruct b eqn:? end;
      (eexists _, _; split; [reflexivity|split; [unfold numpy_int; lia|intros; try discriminate; try lia]]) || (rewrite ?andb_true_iff, ?andb_false_iff, ?Z.leb_gt, ?Z.leb_le in *; exfalso; lia). }
  cbn [result_type]. unfold promote_int, same_kind. destruct s'; [reflexivity|]. specialize (S' eq_refl). cbn [Bool.eqb].
  destruct (b' <? b); [reflexivity|]. destruct (8 <=? b') eqn:E; [apply Z.leb_le in E; lia|reflexivity].
Qed.
Lemma unsigned_op_fails o t n l k : machine_int t -> kind t = 0 -> signed_size (Z.abs k) -> inplace_op o (zarr t n l) (SI k) = Err TypeError.
Proof.
  intros (s & b & -> & B) K A. destruct s; [discriminate|]. unfold inplace_op. rewrite one_type. cbn [rbind]. change (ptype_of (zarr (TNum (DInt false b)) n l)) with (TNum (DInt false b)).
  assert (exists b', min_int_type k (Z.abs k) = TNum (DInt true b')) as (b' & ->).
  { unfold min_int_type, signed_size in *. repeat match goal with |- context [if ?b then _ else _] => destruct b eqn:? end;
      (eexists; reflexivity) || (rewrite ?andb_true_iff, ?andb_false_iff, ?Z.leb_gt, ?Z.leb_le in *; exfalso; lia). }
  assert (same_kind (result_type (TNum (DInt false b)) (TNum (DInt true b'))) (TNum (DInt false b)) = false) as ->; [|reflexivity].
  cbn [result_type]. unfold promote_int. cbn [Bool.eqb]. destruct (b <? b'); [reflexivity|]. now destruct (8 <=? b).
Qed.
Lemma zarr_ne t sc l : l <> [] -> map (mark t sc) l <> [].
Proof. now destruct l. Qed.
Lemma needed_mark t sc l k j : needed (map (mark t sc) l) k j = needed l k j.
Proof. unfold needed. now rewrite mark_fst. Qed.
Lemma opt_op_runs o t n l s d k : int_type t -> 1 <= kind t -> int_factor s d k -> Z.abs k < 2 ^ 63 ->
  exists r, opt_op o (k =? d) s (zarr t n l) = Ok r.
Proof.
  intros T K Hs A. unfold opt_op. destruct (k =? d) eqn:E; [now eexists|]. destruct Hs as [[-> ->]| ->]; [now rewrite Z.eqb_refl in E|]. now apply signed_op_ok.
Qed.
Lemma nontrivial k j : ~ (k = 1 /\ j = 0) -> (k =? 1) && (j =? 0) = false.
Proof. intros N. apply andb_false_iff. destruct (k =? 1) eqn:E1; [right|now left]. apply Z.eqb_eq in E1. apply Z.eqb_neq. tauto. Qed.
Lemma apply_runs t n l s o k j sc : machine_int t -> l <> [] -> int_factor s 1 k -> int_factor o 0 j -> ~ (k = 1 /\ j = 0) ->
  (forall z, special_in sc z -> int_fits t z) -> Z.abs k < 2 ^ 63 -> Z.abs j < 2 ^ 63 ->
  (forall t1, needed l k j = Ok t1 -> 1 <= kind t1) ->
  exists r, snd (apply_scaling (zarr t n l) s o sc) = Ok r.
Proof.
  intros T Ne Hs Ho N F Ak Aj K. unfold apply_scaling. rewrite (factor_scaling s k Hs), (factor_offset o j Ho), (nontrivial k j N), (mark_eq t n l sc T F).
  destruct (adjust_total t n (map (mark t sc) l) s o k j T Hs Ho N (zarr_ne t sc l Ne)) as (t1 & t0 & copied & En & Ea & Ek & _). rewrite needed_mark in En. specialize (K t1 En). rewrite Ea.
  pose proof (adjust_ints t n _ s o k j _ _ T Hs Ho N Ea) as (t0' & E0 & T0 & _ & I0). injection E0 as <-. rewrite <- Ek in K.
  destruct (opt_op_runs OMul t0 n (map (mark t sc) l) s 1 k T0 K Hs Ak) as [m1 E1]. rewrite E1.
  assert (Z1 : m1 = zarr t0 n (map (stepz t0 OMul k) (map (mark t sc) l))).
  { apply (opt_op_ints t0 n _ OMul s 1 k (k =? 1)); auto; [|intros z; apply Z.mul_1_r]. intros p Hp. now apply inside_fits, I0. }
  destruct (opt_op_runs OAdd t0 n (map (stepz t0 OMul k) (map (mark t sc) l)) o 0 j T0 K Ho Aj) as [m2 E2]. rewrite Z1, E2. cbn [snd].
  rewrite <- (factor_scaling s k Hs) in E1. rewrite Z1 in E1. rewrite <- (factor_offset o j Ho) in E2.
  pose proof (steps_ints t0 n _ s o k j _ m2 T0 Hs Ho I0 E1 E2) as ->.
  destruct (downcast_total t0 n (map (scalez k j) (map (mark t sc) l)) T0) as [r Er].
  - intros p Hp. apply in_map_iff in Hp as (q & <- & Hq). destruct (I0 q Hq). unfold scalez. now destruct (snd q).
  - now destruct l.
  - rewrite Er. cbn [rbind]. now eexists.
Qed.
Lemma apply_fails t n l s o k j sc : machine_int t -> l <> [] -> s = Some (SI k) -> int_factor o 0 j -> k <> 1 ->
  (forall z, special_in sc z -> int_fits t z) -> signed_size (Z.abs k) ->
  (forall t1, needed l k j = Ok t1 -> kind t1 = 0) ->
  snd (apply_scaling (zarr t n l) s o sc) = Err TypeError.
Proof.
  intros T Ne Es Ho N F Ak K. assert (Hs : int_factor s 1 k) by now right. assert (N' : ~ (k = 1 /\ j = 0)) by tauto.
  unfold apply_scaling. rewrite (factor_scaling s k Hs), (factor_offset o j Ho), (nontrivial k j N'), (mark_eq t n l sc T F).
  destruct (adjust_total t n (map (mark t sc) l) s o k j T Hs Ho N' (zarr_ne t sc l Ne)) as (t1 & t0 & copied & En & Ea & Ek & _). rewrite needed_mark in En. specialize (K t1 En). rewrite Ea.
  pose proof (adjust_ints t n _ s o k j _ _ T Hs Ho N' Ea) as (t0' & E0 & T0 & _ & _). injection E0 as <-. rewrite <- Ek in K.
  unfold opt_op at 1. apply Z.eqb_neq in N. rewrite N, Es. rewrite unsigned_op_fails; [reflexivity| |exact K|exact Ak].
  destruct T0 as [T0| ->]; [exact T0|discriminate].
Qed.
(** in place *)
Lemma apply_in_place b n l s o k j sc lft r : let t := TNum (DInt true b) in numpy_int b -> l <> [] -> Forall (fun p => int_fits t (fst p)) l ->
  int_factor s 1 k -> int_factor o 0 j -> ~ (k = 1 /\ j = 0) ->
  (exists p, In p l /\ fst p < 0) -> (forall p, In p l -> inside t (fst p) /\ inside t (fst p * k + j)) ->
  apply_scaling (zarr t n l) s o sc = (lft, Ok r) -> lft = zarr t n (map (fun p => (outz t sc k j p, snd p)) l).
Proof.
  intros t B Ne F Hs Ho N (p & Hp & Neg) I H. assert (T : machine_int t) by (exists true, b; now split).
  revert H. unfold apply_scaling. rewrite (factor_scaling s k Hs), (factor_offset o j Ho), (nontrivial k j N).
  destruct (match sc with Some c => do r <- mask_constants c (zarr t n l); Ok (fst r) | None => Ok (zarr t n l) end) as [m|e] eqn:Em; [|discriminate].
  assert (Em' : m = zarr t n (map (mark t sc) l)).
  { rewrite mark_eq in Em; [now injection Em as <-|exact T|]. destruct sc as [c|]; [|intros z []]. rewrite mask_constants_eq in Em.
    change (ptype_of (zarr t n l)) with t in Em. destruct (forallb _ c) eqn:Ef; [|discriminate]. now apply (proj1 (fill_int t c T)). }
  subst m. destruct (adjust_total t n (map (mark t sc) l) s o k j T Hs Ho N (zarr_ne t sc l Ne)) as (t1 & t0 & copied & En & Ea & Ek & C). rewrite needed_mark in En. rewrite Ea.
  assert (copied = false).
  { apply needed_spec in En as (lo & m & -> & (z & Iz & _ & V) & Lo & (v & (z' & Iz' & _ & V') & ->) & M).
    assert (Lneg : lo < 0).
    { apply (in_map fst) in Hp. destruct (fold1_ok Z.min (map fst l)) as [a Ea']; [now destruct l|]. apply fold1_min in Ea' as [Ia Ea'].
      specialize (Ea' _ Hp) as L. enough (lo <= a) by lia. apply Lo. exists a. split; [exact Ia|]. split; [now left|now left]. }
    assert (M' : Z.abs v <= imax true b).
    { apply in_map_iff in Iz' as (q & <- & Hq). destruct (I q Hq) as [(_ & A1 & _) (_ & A2 & _)]. destruct V'; subst v; assumption. }
    pose proof (min_int_narrow lo (Z.abs v) b true B (Z.abs_nonneg v) M' ltac:(discriminate)) as W.
    apply C.
    - pose proof (min_kind_signed lo (Z.abs v) (or_introl Lneg)) as K. destruct (min_int_type_int lo (Z.abs v)) as [(s' & b' & E & _)|E]; rewrite E in *.
      + destruct s'; [reflexivity|cbn in K; lia].
      + cbn [rank] in W. destruct B as [->|[->|[->| ->]]]; lia.
    - destruct (min_int_type_int lo (Z.abs v)) as [(s' & b' & E & _)|E]; rewrite E in *; cbn [rank] in W; [exact W|]. destruct B as [->|[->|[->| ->]]]; lia. }
  subst copied. apply (adjust_ints t n _ s o k j) in Ea as (t0' & E0 & T0 & C0 & I0); [|assumption..].
  injection E0 as <-. specialize (C0 eq_refl). subst t0.
  rewrite <- (factor_scaling s k Hs), <- (factor_offset o j Ho). destruct (opt_op OMul _ s _) as [m1|] eqn:E1; [|discriminate].
  destruct (opt_op OAdd _ o m1) as [m2|] eqn:E2; [|discriminate].
  pose proof (steps_ints t n _ s o k j m1 m2 T0 Hs Ho I0 E1 E2) as ->. rewrite scaled_marked. intros H. apply pair_equal_spec in H as [<- _].
  now apply (put_values_eq t n l (fun p => (outz t sc k j p, snd p || markz t sc (fst p)))).
Qed.

(** the second of two steps fails *)
Lemma apply_half b n l k j : let t := TNum (DInt false b) in numpy_int b -> l <> [] -> Forall (fun p => snd p = false) l ->
  (forall p, In p l -> 0 <= fst p /\ int_fits t (fst p) /\ int_fits t (fst p * k + j)) -> unsigned_size k -> 0 < j -> signed_size j ->
  (forall t1, needed l k j = Ok t1 -> kind t1 = 0 /\ itemsize t1 <= b) ->
  apply_scaling (zarr t n l) (Some (SI k)) (Some (SI j)) None = (zarr t n (map (fun p => (fst p * k, false)) l), Err TypeError).
Proof.
  intros t B Ne U F Uk Pj Sj K. assert (T : machine_int t) by (exists false, b; now split).
  assert (Hs : int_factor (Some (SI k)) 1 k) by now right. assert (Ho : int_factor (Some (SI j)) 0 j) by now right.
  assert (k <> 1) as N1 by (unfold unsigned_size in Uk; lia). assert (N : ~ (k = 1 /\ j = 0)) by tauto.
  unfold apply_scaling. rewrite (factor_scaling _ k Hs), (factor_offset _ j Ho), (nontrivial k j N).
  destruct (adjust_total t n l _ _ k j T Hs Ho N Ne) as (t1 & t0 & copied & En & Ea & Ek & C). destruct (K t1 En) as [K1 K2]. rewrite Ea.
  specialize (C (eq_sym K1) K2). subst copied. apply (adjust_ints t n l _ _ k j) in Ea as (t0' & E0 & T0 & C0 & I0); [|assumption..]. injection E0 as <-. specialize (C0 eq_refl). subst t0.
  unfold opt_op at 1. apply Z.eqb_neq in N1 as N2. rewrite N2.
  assert (E1 : exists m1, inplace_op OMul (zarr t n l) (SI k) = Ok m1).
  { unfold inplace_op. rewrite one_type. cbn [rbind]. change (ptype_of (zarr t n l)) with t.
    assert (exists b', min_int_type k (Z.abs k) = TNum (DInt false b')) as (b' & ->).
    { unfold min_int_type, unsigned_size in *. repeat match goal with |- context [if ?b then _ else _] => destruct b eqn:? end;
      (eexists; reflexivity) || (rewrite ?andb_true_iff, ?andb_false_iff, ?Z.leb_gt, ?Z.leb_le in *; exfalso; lia). }
    unfold t. cbn. now eexists. }
  destruct E1 as [m1 E1]. rewrite E1. apply inplace_ints in E1; [|now left]. subst m1. unfold opt_op. assert (j =? 0 = false) as -> by (apply Z.eqb_neq; lia).
  rewrite unsigned_op_fails; [|exact T|reflexivity|now rewrite Z.abs_eq by lia]. f_equal. rewrite (put_values_eq t n l (stepz t OMul k)); [|trivial]. f_equal. apply map_ext_in. intros [z m] Hp.
  rewrite Forall_forall in U. specialize (U _ Hp). cbn [snd] in U. subst m. destruct (F _ Hp) as (F0 & F1 & F2). unfold stepz. cbn [fst snd zop] in *.
  rewrite wrap_t_id; [reflexivity|exact T0|]. unfold t in *. cbn [int_fits] in *. unfold int_holds in *. unfold unsigned_size in Uk. nia.
Qed.

(** an offset that needs an unsigned type of 8 bytes cannot be added to signed integers *)
Lemma huge_op_fails o b n l k : numpy_int b -> 2 ^ 63 <= k < 2 ^ 64 -> inplace_op o (zarr (TNum (DInt true b)) n l) (SI k) = Err TypeError.
Proof.
  intros B K. unfold inplace_op. rewrite one_type. cbn [rbind].
  assert (min_int_type k (Z.abs k) = TNum (DInt false 8)) as ->.
  { unfold min_int_type. repeat match goal with |- context [if ?b then _ else _] => destruct b eqn:? end; try reflexivity; rewrite ?andb_false_iff, ?Z.leb_gt, ?Z.leb_le in *; exfalso; lia. }
  destruct B as [->|[->|[->| ->]]]; reflexivity.
Qed.
Lemma apply_huge t n l j : machine_int t -> l <> [] -> 2 ^ 63 <= j < 2 ^ 64 ->
  (forall t1, needed l 1 j = Ok t1 -> kind t1 = 1) -> snd (apply_scaling (zarr t n l) None (Some (SI j)) None) = Err TypeError.
Proof.
  intros T Ne Hj K. assert (Hs : int_factor None 1 1) by now left. assert (Ho : int_factor (Some (SI j)) 0 j) by now right. assert (N : ~ (1 = 1 /\ j = 0)) by lia.
  unfold apply_scaling. rewrite (factor_scaling _ 1 Hs), (factor_offset _ j Ho), (nontrivial 1 j N).
  destruct (adjust_total t n l _ _ 1 j T Hs Ho N Ne) as (t1 & t0 & copied & En & Ea & Ek & _). specialize (K t1 En). rewrite Ea.
  pose proof (adjust_ints t n _ _ _ 1 j _ _ T Hs Ho N Ea) as (t0' & E0 & T0 & _ & _). injection E0 as <-. rewrite <- Ek in K.
  unfold opt_op. cbn [Z.eqb Pos.eqb]. assert (j =? 0 = false) as -> by (apply Z.eqb_neq; lia).
  destruct T0 as [(s & b & -> & B)| ->]; [|discriminate]. destruct s; [|discriminate]. now rewrite huge_op_fails.
Qed.

(** ** Scaling in double precision *)
Lemma fconv_ok q : (Qabs q <= two_to 1023)%Q -> fconv DF64 q = Fin (round_to DF64 q) /\ nearest DF64 q (round_to DF64 q).
Proof.
  intros B. destruct (to_float_ok DF64 q I B) as [E N]. split; [|exact N]. unfold to_float in E. unfold fconv. cbv zeta in *.
  destruct (Qle_bool _ _); [reflexivity|discriminate].
Qed.
Lemma grid_32_64 q : holds DF32 q -> holds DF64 q.
Proof.
  intros [(m & e & E & M & Em) B]. split.
  - exists m, e. split; [exact E|]. split; [|lia]. eapply Z.lt_trans; [exact M|]. reflexivity.
  - eapply Qle_trans; [exact B|]. vm_compute. discriminate.
Qed.
Lemma holds_round q : holds DF64 q -> fconv DF64 q = Fin (round_to DF64 q) /\ nearest DF64 q (round_to DF64 q).
Proof.
  intros H. assert (B : (Qabs (round_to DF64 q) <= fmax DF64)%Q) by (rewrite round_to_grid by easy; apply H).
  split; [|now apply nearest_round]. unfold fconv. apply Qle_bool_iff in B. now rewrite B.
Qed.
Lemma nearest_self q : holds DF64 q -> nearest DF64 q q.
Proof. intros H. split; [exact H|]. intros y _. setoid_replace (q - q)%Q with 0%Q by ring. apply Qabs_nonneg. Qed.
Lemma int_round z s b : numpy_int b -> int_holds s b z -> (Qabs (inject_Z z) <= two_to 64)%Q.
Proof. intros B H. rewrite two_to_Z by lia. change (Qabs (inject_Z z)) with (inject_Z (Z.abs z)). rewrite <- Zle_Qle. now apply (int_holds_bound s b). Qed.
Definition conv (t : ptype) (x : elt) : elt :=
  match x with
  | EI z => EF (fconv DF64 (inject_Z z))
  | EF (Fin q) => match t with TNum DF32 => EF (fconv DF64 q) | _ => x end
  | _ => x
  end.
(** the element fits the type *)
Definition fits_elt (t : ptype) (x : elt) : Prop :=
  match t, x with
  | TNum (DInt s b), EI z => numpy_int b /\ int_holds s b z
  | TNum (DInt _ _), EF _ => False
  | TNum d, EF (Fin q) => holds d q
  | TNum _, EF _ => True
  | _, _ => False
  end.
Lemma conv_number t x : fits_elt t x -> as_double (number x) (number (conv t x)).
Proof.
  destruct t as [[s b| |]|]; destruct x as [z|[q| |n]]; cbn [fits_elt conv number as_double]; try easy.
  - intros [B H]. destruct (fconv_ok (inject_Z z)) as [-> N].
    { eapply Qle_trans; [exact (int_round z s b B H)|]. apply two_to_le. lia. }
    exact N.
  - intros H. destruct (holds_round q (grid_32_64 q H)) as [-> N]. exact N.
  - intros H. now apply nearest_self.
Qed.
Lemma conv_double t x : fits_elt t x -> exists v, conv t x = EF v.
Proof. destruct t as [[s b| |]|]; destruct x as [z|[q| |n]]; cbn [fits_elt conv]; try easy; intros _; now eexists. Qed.
Lemma two_half k : (two_to (k + 1) == 2 * two_to k)%Q.
Proof. rewrite two_to_add. change (two_to 1) with 2%Q. ring. Qed.
Definition mulf (skip : bool) (s : Q) (v : num) : num := if skip then v else fmul v (fconv DF64 s).
Definition addf (skip : bool) (o : Q) (v : num) : num := if skip then v else fadd v (fconv DF64 o).
Lemma holds_0 : holds DF64 0.
Proof. split; [exists 0, 0; repeat split; try lia; reflexivity|vm_compute; discriminate]. Qed.
Lemma holds_1 : holds DF64 1.
Proof. split; [exists 1, 0; repeat split; try lia; reflexivity|vm_compute; discriminate]. Qed.
Lemma moderate_factor s : moderate DF64 s -> fconv DF64 s = Fin (round_to DF64 s) /\ nearest DF64 s (round_to DF64 s).
Proof. intros H. apply fconv_ok. exact (moderate_top DF64 s H). Qed.
Lemma q_sign_pos q : (0 < q)%Q -> q_sign q = 1.
Proof. unfold q_sign, Qlt. cbn. intros H. apply Z.sgn_pos. lia. Qed.
Lemma q_sign_neg q : (q < 0)%Q -> q_sign q = -1.
Proof. unfold q_sign, Qlt. cbn. intros H. apply Z.sgn_neg. lia. Qed.
Lemma q_sign_0 q : (q == 0)%Q -> q_sign q = 0.
Proof. unfold q_sign, Qeq. cbn. intros H. apply Z.sgn_null_iff. lia. Qed.
Lemma q_lt_asym q : (0 < q)%Q -> (q < 0)%Q -> False.
Proof. intros A B. exact (Qlt_irrefl 0 (Qlt_trans _ _ _ A B)). Qed.
Lemma abs_prod a b c d x : (0 <= x)%Q -> (Qabs a <= 2 * Qabs b)%Q -> (Qabs c <= 2 * Qabs d)%Q -> (Qabs (b * d) <= x)%Q -> (Qabs (a * c) <= 4 * x)%Q.
Proof.
  rewrite !Qabs_Qmult. intros X A C P. pose proof (Qabs_nonneg a). pose proof (Qabs_nonneg b). pose proof (Qabs_nonneg c). pose proof (Qabs_nonneg d).
  apply Qle_trans with ((2 * Qabs b) * (2 * Qabs d))%Q.
  - apply Qle_trans with ((2 * Qabs b) * Qabs c)%Q.
    + apply Qmult_le_compat_r; assumption.
    + rewrite !(Qmult_comm (2 * Qabs b)). apply Qmult_le_compat_r; [assumption|]. now apply Qmult_le_0_compat.
  - setoid_replace (2 * Qabs b * (2 * Qabs d))%Q with (4 * (Qabs b * Qabs d))%Q by ring. apply Qmult_le_l; [reflexivity|assumption].
Qed.
Lemma steps_double s o x v ks ko : (ks = true -> (s == 1)%Q) -> (ko = true -> (o == 0)%Q) -> moderate DF64 s -> moderate DF64 o ->
  (forall q, x = Fin q -> moderate DF64 (q * s)) -> (forall q r, x = Fin q -> v = Fin r -> (Qabs r <= 2 * Qabs q)%Q) -> as_double x v ->
  float_scaled DF64 s o x (addf ko o (mulf ks s v)).
Proof.
  intros Ks Ko Ms Mo Mx Dx Av. destruct (moderate_factor s Ms) as [Es Ns]. destruct (moderate_factor o Mo) as [Eo No].
  unfold mulf, addf. rewrite Es, Eo. set (s' := round_to DF64 s) in *. set (o' := round_to DF64 o) in *.
  destruct x as [q| |n]; destruct v as [r| |n']; try (now destruct Av).
  - cbn [as_double] in Av. cbn [float_scaled]. specialize (Mx q eq_refl). specialize (Dx q r eq_refl eq_refl).
    assert (Hm : exists m, (if ks then Fin r else fmul (Fin r) (Fin s')) = Fin m /\ nearest DF64 (r * s') m /\ (Qabs m <= two_to 1002)%Q).
    { assert (P : (Qabs (r * s') <= two_to 1002)%Q).
      { apply moderate_mid in Mx. pose proof (round_to_double DF64 s I) as D. fold s' in D. cbn [mid] in Mx.
        setoid_replace (two_to 1002)%Q with (4 * two_to 1000)%Q.
        - apply (abs_prod r q s' s); [|exact Dx|exact D|exact Mx]. apply Qlt_le_weak, two_to_pos.
        - change 1002 with (1000 + 1 + 1). rewrite !two_half. ring. }
      destruct ks.
      - specialize (Ks eq_refl). assert (E1 : (s' == 1)%Q). { unfold s'. rewrite Ks. apply round_to_grid; [exact I|exact holds_1]. }
        exists r. split; [reflexivity|]. rewrite E1, Qmult_1_r in P. split; [|exact P].
        apply (nearest_eq DF64 r); [rewrite E1; ring|]. apply nearest_self. apply Av.
      - cbn [fmul]. destruct (fconv_ok (r * s')) as [Em Nm].
        { eapply Qle_trans; [exact P|]. apply two_to_le. lia. }
        rewrite Em. exists (round_to DF64 (r * s')). split; [reflexivity|]. split; [exact Nm|]. apply round_to_bound; [exact I|lia|exact P]. }
    destruct Hm as (m & Em & Nm & Bm). rewrite Em. clear Em.
    assert (Hr : exists r', (if ko then Fin m else fadd (Fin m) (Fin o')) = Fin r' /\ nearest DF64 (m + o') r').
    { destruct ko.
      - specialize (Ko eq_refl). assert (E0 : (o' == 0)%Q). { unfold o'. rewrite Ko. apply round_to_grid; [exact I|exact holds_0]. }
        exists m. split; [reflexivity|]. apply (nearest_eq DF64 m); [rewrite E0; ring|]. apply nearest_self. apply Nm.
      - cbn [fadd]. destruct (fconv_ok (m + o')) as [Er Nr].
        { eapply Qle_trans; [apply Qabs_triangle|]. apply moderate_mid in Mo. apply (round_to_bound DF64 o 1000 I ltac:(lia)) in Mo. fold o' in Mo.
          apply Qle_trans with (two_to 1002 + two_to 1002)%Q.
          - apply Qplus_le_compat; [exact Bm|]. eapply Qle_trans; [exact Mo|]. apply two_to_le. lia.
          - apply Qle_trans with (two_to 1003); [|apply two_to_le; lia]. change 1003 with (1002 + 1). rewrite two_half. lra. }
        rewrite Er. now exists (round_to DF64 (m + o')). }
    destruct Hr as (r' & Er & Nr). exists r, s', o', m, r'. repeat (split; [assumption|]). assumption.
  - cbn [float_scaled]. destruct ks, ko; reflexivity.
  - cbn [as_double] in Av. subst n'. cbn [float_scaled]. exists s'. split; [exact Ns|]. destruct ks.
    + specialize (Ks eq_refl). assert (E1 : (s' == 1)%Q). { unfold s'. rewrite Ks. apply round_to_grid; [exact I|exact holds_1]. }
      rewrite E1. split; [intros _; now destruct ko|]. split; intros H; exfalso; [revert H|revert H]; unfold Qlt, Qeq; cbn; lia.
    + cbn [fmul num_sign]. split; [|split]; intros H.
      * rewrite (q_sign_pos s' H). destruct n, ko; reflexivity.
      * rewrite (q_sign_neg s' H). destruct n, ko; reflexivity.
      * rewrite (q_sign_0 s' H). destruct n, ko; reflexivity.
Qed.
Lemma cast_conv t x : fits_elt t x -> t <> TNum DF64 -> cast_elt t (TNum DF64) x = Ok (conv t x).
Proof. destruct t as [[s b| |]|]; destruct x as [z|[q| |n]]; cbn [fits_elt cast_elt conv]; easy. Qed.
Lemma conv_64 x : fits_elt (TNum DF64) x -> conv (TNum DF64) x = x.
Proof. destruct x as [z|[q| |n]]; cbn; easy. Qed.
Lemma adjust_double a s o m0 copied : Forall (fun c => fits_elt (ptype_of a) (fst c)) (cells a) -> ptype_of a <> TObj ->
  no_scaling s && no_offset o = false -> float_type (ptype_of a) || sf s || sf o = true -> adjust a s o = Ok (m0, copied) ->
  m0 = mkP (TNum DF64) (ndim a) (map (fun c => (conv (ptype_of a) (fst c), snd c)) (cells a)) /\ (copied = false <-> ptype_of a = TNum DF64).
Proof.
  intros F No N Fl. unfold adjust, scaled_type. rewrite N, Fl. cbn [rbind]. cbv zeta.
  match goal with |- context [if ?b then _ else _] => destruct b eqn:C end.
  - assert (Ne : ptype_of a <> TNum DF64) by (intros E; rewrite E in C; discriminate).
    unfold pastype. assert (E : rmap (fun c => do x <- cast_elt (ptype_of a) (TNum DF64) (fst c); Ok (x, snd c)) (cells a) = Ok (map (fun c => (conv (ptype_of a) (fst c), snd c)) (cells a))).
    { apply rmap_spec, F2_map_r. intros c Hc. rewrite Forall_forall in F. rewrite cast_conv; [reflexivity|now apply F|exact Ne]. }
    rewrite E. cbn [rbind]. intros [= <- <-]. split; [reflexivity|]. split; [discriminate|intros X; now destruct Ne].
  - intros [= <- <-].
    assert (P : ptype_of a = TNum DF64).
    { rewrite !andb_false_iff, orb_false_iff, !negb_false_iff in C. destruct (ptype_of a) as [[[] b| |]|]; try reflexivity; try (now destruct No); exfalso;
        destruct C as [[C|C]|[C1 C2]]; discriminate. }
    split; [|split; [intros _; exact P|reflexivity]]. destruct a as [t n cs]. cbn [ptype_of ndim cells] in *. subst t. f_equal.
    rewrite <- (map_id cs) at 1. apply map_ext_in. intros [x m] Hx. rewrite Forall_forall in F. cbn [fst snd]. now rewrite (conv_64 x (F _ Hx)).
Qed.
Lemma inplace_double o n l c r : (forall p, In p l -> exists v, fst p = EF v) -> inplace_op o (mkP (TNum DF64) n l) c = Ok r ->
  r = mkP (TNum DF64) n (map (fun p : elt * bool => if snd p then p else (EF (fop o (number (fst p)) (fconv DF64 (scalar_q c))), snd p)) l).
Proof.
  intros D. unfold inplace_op. destruct (match c with SI z => _ | SF _ => _ end) as [tc|]; [|discriminate]. cbn [rbind ptype_of ndim cells].
  destruct (same_kind _ _); [|discriminate]. intros [= <-]. f_equal. apply map_ext_in. intros [x m] Hp. destruct (D _ Hp) as [v E]. cbn [fst snd] in *. subst x. reflexivity.
Qed.
Lemma opt_mul_double n l s r : (forall p, In p l -> exists v, fst p = EF v) -> opt_op OMul (no_scaling s) s (mkP (TNum DF64) n l) = Ok r ->
  r = mkP (TNum DF64) n (map (fun p : elt * bool => if snd p then p else (EF (mulf (no_scaling s) (factor s 1) (number (fst p))), snd p)) l).
Proof.
  intros D. unfold opt_op. destruct (no_scaling s) eqn:E.
  - intros [= <-]. f_equal. rewrite <- (map_id l) at 1. apply map_ext_in. intros [x m] Hp. destruct (D _ Hp) as [v Ev]. cbn [fst snd] in *. subst x. now destruct m.
  - destruct s as [s|]; [|discriminate]. now apply inplace_double.
Qed.
Lemma opt_add_double n l s r : (forall p, In p l -> exists v, fst p = EF v) -> opt_op OAdd (no_offset s) s (mkP (TNum DF64) n l) = Ok r ->
  r = mkP (TNum DF64) n (map (fun p : elt * bool => if snd p then p else (EF (addf (no_offset s) (factor s 0) (number (fst p))), snd p)) l).
Proof.
  intros D. unfold opt_op. destruct (no_offset s) eqn:E.
  - intros [= <-]. f_equal. rewrite <- (map_id l) at 1. apply map_ext_in. intros [x m] Hp. destruct (D _ Hp) as [v Ev]. cbn [fst snd] in *. subst x. now destruct m.
  - destruct s as [s|]; [|discriminate]. now apply inplace_double.
Qed.
(** what becomes of an element *)
Definition marked (t : ptype) (sc : option (list (str * special))) (c : elt * bool) : bool := snd c || match sc with Some l => hit t l (fst c) | None => false end.
Definition outd (t : ptype) (s o : option scalar) (sc : option (list (str * special))) (c : elt * bool) : elt :=
  if marked t sc c then conv t (fst c)
  else EF (addf (no_offset o) (factor o 0) (mulf (no_scaling s) (factor s 1) (number (conv t (fst c))))).
Lemma apply_double a s o sc lft r : Forall (fun c => fits_elt (ptype_of a) (fst c)) (cells a) -> ptype_of a <> TObj ->
  no_scaling s && no_offset o = false -> float_type (ptype_of a) || sf s || sf o = true -> apply_scaling a s o sc = (lft, Ok r) ->
  r = mkP (TNum DF64) (ndim a) (map (fun c => (outd (ptype_of a) s o sc c, if (match sc with Some _ => is_masked a | None => false end) then snd c else marked (ptype_of a) sc c)) (cells a)) /\
  (ptype_of a <> TNum DF64 -> lft = a) /\ (ptype_of a = TNum DF64 -> lft = mkP (TNum DF64) (ndim a) (map (fun c => (outd (ptype_of a) s o sc c, snd c)) (cells a))).
Proof.
  intros F No N Fl. unfold apply_scaling. rewrite N.
  destruct (match sc with Some c => do r <- mask_constants c a; Ok (fst r) | None => Ok a end) as [m|e] eqn:Em; [|discriminate].
  assert (Em' : m = mkP (ptype_of a) (ndim a) (map (fun c => (fst c, marked (ptype_of a) sc c)) (cells a))).
  { destruct sc as [c|].
    - rewrite mask_constants_eq in Em. destruct (forallb _ c); [|discriminate]. injection Em as <-. reflexivity.
    - injection Em as <-. destruct a as [t n cs]. cbn [ptype_of ndim cells]. f_equal. rewrite <- (map_id cs) at 1. apply map_ext. intros [x k]. unfold marked. cbn. now rewrite orb_false_r. }
  subst m. destruct (adjust _ s o) as [[m0 copied]|e] eqn:Ea; [|discriminate].
  apply adjust_double in Ea as [-> C0]; [|cbn [ptype_of cells]; apply Forall_map; exact F|exact No|exact N|exact Fl].
  cbn [ptype_of ndim cells] in *. rewrite map_map. cbn [fst snd].
  destruct (opt_op OMul _ s _) as [m1|] eqn:E1; [|discriminate]. apply opt_mul_double in E1.
  2: { intros p Hp. apply in_map_iff in Hp as (q & <- & Hq). rewrite Forall_forall in F. now apply conv_double, F. }
  subst m1. rewrite map_map. cbn [fst snd].
  destruct (opt_op OAdd _ o _) as [m2|] eqn:E2; [|discriminate]. apply opt_add_double in E2.
  2: { intros p Hp. apply in_map_iff in Hp as (q & <- & Hq). rewrite Forall_forall in F. destruct (marked _ sc q); [now apply conv_double, F|now eexists]. }
  subst m2. rewrite map_map. cbn [fst snd].
  assert (E : map (fun x : elt * bool => if snd (if marked (ptype_of a) sc x then (conv (ptype_of a) (fst x), marked (ptype_of a) sc x) else (EF (mulf (no_scaling s) (factor s 1) (number (conv (ptype_of a) (fst x)))), marked (ptype_of a) sc x))
      then (if marked (ptype_of a) sc x then (conv (ptype_of a) (fst x), marked (ptype_of a) sc x) else (EF (mulf (no_scaling s) (factor s 1) (number (conv (ptype_of a) (fst x)))), marked (ptype_of a) sc x))
      else (EF (addf (no_offset o) (factor o 0) (number (fst (if marked (ptype_of a) sc x then (conv (ptype_of a) (fst x), marked (ptype_of a) sc x) else (EF (mulf (no_scaling s) (factor s 1) (number (conv (ptype_of a) (fst x)))), marked (ptype_of a) sc x))))),
            snd (if marked (ptype_of a) sc x then (conv (ptype_of a) (fst x), marked (ptype_of a) sc x) else (EF (mulf (no_scaling s) (factor s 1) (number (conv (ptype_of a) (fst x)))), marked (ptype_of a) sc x)))) (cells a)
    = map (fun c => (outd (ptype_of a) s o sc c, marked (ptype_of a) sc c)) (cells a)).
  { apply map_ext. intros c. unfold outd. destruct (marked _ sc c); reflexivity. }
  rewrite E. clear E. unfold downcast. cbn [is_integer_data ptype_of rbind]. intros H. apply pair_equal_spec in H as [Hl Hr]. injection Hr as Hr. split.
  - subst r. destruct sc as [c|]; [|reflexivity]. destruct (is_masked a); [|reflexivity]. unfold set_mask. cbn [cells ptype_of ndim]. f_equal. rewrite map_map. cbn [fst].
    clear. generalize (ptype_of a). intros t. induction (cells a) as [|p l IH]; [reflexivity|]. cbn [map combine]. now rewrite IH.
  - destruct copied; [split; [now symmetry|intros X; apply C0 in X; discriminate]|]. pose proof (proj1 C0 eq_refl) as C1. clear C0. rename C1 into C0. split; [intros X; now destruct X|intros _]. rewrite <- Hl. unfold put_values. cbn [cells]. rewrite C0. f_equal.
    clear. induction (cells a) as [|p l IH]; [reflexivity|]. cbn [map combine]. now rewrite IH.
Qed.

Lemma small_op_double o n l c skip : small_factor c -> exists r, opt_op o skip c (mkP (TNum DF64) n l) = Ok r /\ ptype_of r = TNum DF64.
Proof.
  intros H. unfold opt_op. destruct skip; [now eexists|]. destruct c as [c|]; [|now eexists]. unfold inplace_op.
  assert (E : exists d, match c with SI z => min_type_list [z] | SF _ => Ok (TNum DF64) end = Ok (TNum d)).
  { destruct c as [z|q]; [|now eexists]. specialize (H z eq_refl). rewrite one_type. unfold min_int_type. repeat match goal with |- context [if ?b then _ else _] => destruct b eqn:? end; try now eexists.
    exfalso. apply Z.leb_gt in Heqb5. lia. }
  destruct E as [d ->]. cbn [rbind ptype_of]. assert (result_type (TNum DF64) (TNum d) = TNum DF64) as -> by now destruct d. cbn. now eexists.
Qed.
Lemma adjust_double_total a s o : Forall (fun c => fits_elt (ptype_of a) (fst c)) (cells a) -> 
  no_scaling s && no_offset o = false -> float_type (ptype_of a) || sf s || sf o = true -> exists m0 copied, adjust a s o = Ok (m0, copied).
Proof.
  intros F N Fl. unfold adjust, scaled_type. rewrite N, Fl. cbn [rbind]. cbv zeta.
  match goal with |- context [if ?b then _ else _] => destruct b eqn:C end; [|now eexists _, _].
  assert (Ne : ptype_of a <> TNum DF64) by (intros E; rewrite E in C; discriminate). unfold pastype.
  assert (E : rmap (fun c => do x <- cast_elt (ptype_of a) (TNum DF64) (fst c); Ok (x, snd c)) (cells a) = Ok (map (fun c => (conv (ptype_of a) (fst c), snd c)) (cells a))).
  { apply rmap_spec, F2_map_r. intros c Hc. rewrite Forall_forall in F. rewrite cast_conv; [reflexivity|now apply F|exact Ne]. }
  rewrite E. cbn [rbind]. now eexists _, _.
Qed.
Lemma double_runs a s o sc : Forall (fun c => fits_elt (ptype_of a) (fst c)) (cells a) -> machine_int (ptype_of a) \/ (exists d, is_float d /\ ptype_of a = TNum d) ->
  no_scaling s && no_offset o = false -> float_type (ptype_of a) || sf s || sf o = true -> small_factor s -> small_factor o ->
  (machine_int (ptype_of a) -> forall z, special_in sc z -> int_fits (ptype_of a) z) ->
  exists r, snd (apply_scaling a s o sc) = Ok r.
Proof.
  intros F Ty N Fl Ss So Fc. unfold apply_scaling. rewrite N. assert (No : ptype_of a <> TObj) by (destruct Ty as [(? & ? & -> & _)|(? & _ & ->)]; discriminate).
  assert (Em : exists m, match sc with Some c => do r <- mask_constants c a; Ok (fst r) | None => Ok a end = Ok m /\ ptype_of m = ptype_of a /\
    Forall (fun c => fits_elt (ptype_of a) (fst c)) (cells m)).
  { destruct sc as [c|]; [|now exists a]. rewrite mask_constants_eq.
    assert (E : forallb (fun kc => implb (applied (ptype_of a) kc) (fill_ok (ptype_of a) (snd kc))) c = true).
    { destruct Ty as [T|(d & D & ->)]; [now apply (fill_int _ c T), Fc|].
      apply forallb_forall. intros [k v] _. destruct d; [destruct D| |]; destruct (applied _ _); reflexivity. }
    rewrite E. cbn [rbind fst]. eexists. split; [reflexivity|]. cbn [ptype_of cells]. split; [reflexivity|]. apply Forall_map. exact F. }
  destruct Em as (m & -> & Pm & Fm). rewrite <- Pm in Fm, No, Fl. destruct (adjust_double_total m s o Fm N Fl) as (m0 & copied & Ea). rewrite Ea.
  apply adjust_double in Ea as [-> _]; [|assumption..].
  match goal with |- context [opt_op OMul _ s (mkP _ ?n ?l)] => destruct (small_op_double OMul n l s (no_scaling s) Ss) as ([t1 n1 l1] & -> & P1) end.
  cbn [ptype_of] in P1. subst t1. destruct (small_op_double OAdd n1 l1 o (no_offset o) So) as (m2 & -> & P2). cbn [snd].
  unfold downcast, is_integer_data. rewrite P2. cbn [rbind]. now eexists.
Qed.

(** ** Bit masks *)
Definition dig (c : ascii) : bool := Ascii.eqb c "1"%char.
Lemma bit_value_snoc s c : bit_value (s ++ [c]) = 2 * bit_value s + Z.b2z (dig c).
Proof. unfold bit_value. rewrite fold_left_app. cbn [fold_left]. unfold dig. now destruct (Ascii.eqb c "1"%char). Qed.
Lemma bit_value_nonneg s : 0 <= bit_value s.
Proof. induction s as [|c s IH] using rev_ind; [cbn; lia|]. rewrite bit_value_snoc. destruct (dig c); cbn [Z.b2z]; lia. Qed.
Lemma bit_value_bit s : forall i, 0 <= i -> Z.testbit (bit_value s) i = mask_bit s i.
Proof.
  induction s as [|c s IH] using rev_ind; intros i Hi.
  - unfold mask_bit. cbn. rewrite Z.testbit_0_l. now destruct (Z.to_nat i).
  - rewrite bit_value_snoc. unfold mask_bit. rewrite rev_app_distr. cbn [rev app]. destruct (Z.eq_dec i 0) as [->|N].
    + rewrite Z.add_comm, Z.add_b2z_double_bit0. reflexivity.
    + replace i with (Z.succ (i - 1)) at 1 by lia. rewrite Z.testbit_succ_r by lia. rewrite IH by lia.
      replace (Z.to_nat i) with (S (Z.to_nat (i - 1))) by lia. reflexivity.
Qed.
Lemma bit_value_lt s : bit_value s < 2 ^ Z.of_nat (length s).
Proof.
  induction s as [|c s IH] using rev_ind; [reflexivity|]. rewrite bit_value_snoc, app_length. cbn [length].
  replace (Z.of_nat (length s + 1)) with (Z.succ (Z.of_nat (length s))) by lia. rewrite Z.pow_succ_r by lia. destruct (dig c); cbn [Z.b2z]; lia.
Qed.
Lemma nth_repeat_false n : forall i, match nth_error (repeat "0"%char n) i with Some c => Ascii.eqb c "1"%char | None => false end = false.
Proof. induction n as [|n IH]; intros [|i]; cbn; auto. Qed.
Lemma rev_repeat {A} (x : A) n : rev (repeat x n) = repeat x n.
Proof.
  induction n as [|n IH]; [reflexivity|]. cbn [repeat rev]. rewrite IH. clear. induction n as [|n IH]; [reflexivity|]. cbn [repeat app]. now rewrite IH.
Qed.
Lemma mask_bit_zfill n s i : mask_bit (zfill n s) i = mask_bit s i.
Proof.
  unfold mask_bit, zfill. rewrite rev_app_distr, rev_repeat. destruct (Nat.lt_ge_cases (Z.to_nat i) (length (rev s))) as [L|L].
  - now rewrite nth_error_app1.
  - rewrite nth_error_app2 by exact L. rewrite nth_repeat_false. apply nth_error_None in L. now rewrite L.
Qed.
Lemma mask_bit_out s i : Z.of_nat (length s) <= i -> mask_bit s i = false.
Proof. intros H. unfold mask_bit. replace (nth_error (rev s) (Z.to_nat i)) with (@None ascii); [reflexivity|]. symmetry. apply nth_error_None. rewrite rev_length. lia. Qed.
Lemma bit_value_zfill n s : bit_value (zfill n s) = bit_value s.
Proof. unfold bit_value, zfill. rewrite fold_left_app. f_equal. generalize (n - length s)%nat. induction n0 as [|m IH]; [reflexivity|]. cbn [repeat fold_left]. exact IH. Qed.
Lemma zfill_ones n s i : binary s -> has_char "0"%char (zfill n s) = false -> 0 <= i < Z.of_nat n -> mask_bit s i = true.
Proof.
  intros B H Hi. rewrite <- (mask_bit_zfill n). unfold mask_bit. destruct (nth_error (rev (zfill n s)) (Z.to_nat i)) as [c|] eqn:E.
  - apply nth_error_In, in_rev in E. assert (c <> "0"%char).
    { intros ->. apply has_char_iff in E. congruence. }
    assert (c = "0"%char \/ c = "1"%char) as [->| ->]; [|now destruct H0|reflexivity].
    unfold zfill in E. apply in_app_iff in E as [E|E]; [left; now apply repeat_spec in E|]. unfold binary in B. rewrite Forall_forall in B. now apply B.
  - apply nth_error_None in E. rewrite rev_length in E. unfold zfill in E. rewrite app_length, repeat_length in E. lia.
Qed.
Lemma mask_value_fits bits a s b : ptype_of a = TNum (DInt s b) -> numpy_int b -> mask_fits bits a -> int_holds s b (bit_value bits).
Proof.
  intros E B [L T]. unfold width_of in L. rewrite E in L. pose proof (bit_value_nonneg bits) as P. pose proof (bit_value_lt bits) as U.
  assert (M : 2 ^ Z.of_nat (length bits) <= 2 ^ (8 * b)) by (apply Z.pow_le_mono_r; lia). unfold int_holds. destruct s; [|lia].
  specialize (T b E). rewrite <- bit_value_bit in T by (destruct B as [->|[->|[->| ->]]]; lia).
  assert (E2 : 2 ^ (8 * b) = 2 * 2 ^ (8 * b - 1)) by (destruct B as [->|[->|[->| ->]]]; reflexivity).
  split; [lia|]. destruct (Z_lt_ge_dec (bit_value bits) (2 ^ (8 * b - 1))) as [H|H]; [exact H|exfalso].
  assert (Z.testbit (bit_value bits) (8 * b - 1) = true); [|congruence].
  apply Z.testbit_true; [destruct B as [->|[->|[->| ->]]]; lia|].
  replace (bit_value bits / 2 ^ (8 * b - 1)) with 1; [reflexivity|]. apply (Z.div_unique _ _ 1 (bit_value bits - 2 ^ (8 * b - 1))); lia.
Qed.
Lemma land_le a b : 0 <= a -> Z.land a b <= a.
Proof.
  intros P. assert (D : Z.land (Z.ldiff a b) (Z.land a b) = 0).
  { rewrite (Z.land_comm a b), Z.land_assoc, Z.land_ldiff. apply Z.land_0_l. }
  assert (E : Z.ldiff a b + Z.land a b = a).
  { rewrite Z.add_nocarry_lxor by exact D. rewrite Z.lxor_lor by exact D. apply Z.lor_ldiff_and. }
  assert (0 <= Z.ldiff a b) by (apply Z.ldiff_nonneg; first [now left|now right|exact P]). lia.
Qed.
Lemma land_fits s b z v : numpy_int b -> int_holds s b z -> int_holds s b v -> 0 <= v -> int_holds s b (Z.land z v).
Proof.
  intros B Hz Hv P. assert (0 <= Z.land z v) by (apply Z.land_nonneg; now right).
  assert (Z.land z v <= v). { rewrite Z.land_comm. now apply land_le. }
  unfold int_holds in *. destruct s; lia.
Qed.
Lemma and_where_ok t n l v which m : machine_int t -> (int_fits t v \/ forall i p, which i p = false) ->
  and_where (zarr t n m) v which (map cell_of l) =
  Ok (zarr t n (map (fun p => (if which (fst p) (cell_of (snd p)) then Z.land (fst (snd p)) v else fst (snd p), false)) (combine (seq 0 (length l)) l))).
Proof.
  intros (s & b & -> & B) V. unfold and_where. rewrite map_length. change (ptype_of (zarr (TNum (DInt s b)) n m)) with (TNum (DInt s b)). cbn [ndim zarr].
  generalize 0%nat. intros k.
  assert (E : rmap (fun p : nat * (elt * bool) => if which (fst p) (snd p) then do x <- and_elt (TNum (DInt s b)) v (fst (snd p)); Ok (x, false) else Ok (fst (snd p), false)) (combine (seq k (length l)) (map cell_of l)) =
    Ok (map cell_of (map (fun p => (if which (fst p) (cell_of (snd p)) then Z.land (fst (snd p)) v else fst (snd p), false)) (combine (seq k (length l)) l)))).
  { apply rmap_spec. revert k. induction l as [|p l IH]; intros k; [constructor|]. cbn [length seq map combine]. constructor; [|apply IH].
    cbn [fst snd]. destruct (which k (cell_of p)) eqn:W; [|reflexivity].
    destruct V as [V|V]; [|rewrite V in W; discriminate]. cbn [cell_of fst snd and_elt]. apply (in_range_holds s b v B) in V. rewrite V. reflexivity. }
  rewrite E. reflexivity.
Qed.
Lemma and_all_ok t n l v w m : machine_int t -> int_fits t v ->
  and_where (zarr t n m) v (fun _ p => w p) (map cell_of l) = Ok (zarr t n (map (fun p => (if w (cell_of p) then Z.land (fst p) v else fst p, false)) l)).
Proof.
  intros T V. rewrite and_where_ok by (try exact T; now left). f_equal. unfold zarr. f_equal. f_equal. generalize 0%nat.
  induction l as [|p l IH]; intros k; [reflexivity|]. cbn [length seq combine map fst snd]. now rewrite IH.
Qed.
Lemma land_kept w bits z : bits_kept w bits z (Z.land z (bit_value bits)).
Proof. intros i Hi. rewrite Z.land_spec, bit_value_bit by lia. reflexivity. Qed.
Lemma mask_unmasked l c t n : mask_constants c (zarr t n l) =
  if forallb (fun kc => implb (applied t kc) (fill_ok t (snd kc))) c then Ok (zarr t n (map (fun p => (fst p, snd p || hit t c (EI (fst p)))) l), existsb (applied t) c) else Err TypeError.
Proof. rewrite mask_constants_eq. change (ptype_of (zarr t n l)) with t. change (ndim (zarr t n l)) with n. destruct (forallb _ c); [|reflexivity]. f_equal. f_equal. unfold zarr. f_equal. cbn [cells]. rewrite !map_map. reflexivity. Qed.
Lemma bitmask_none nn bits t n l : machine_int t -> Forall (fun p => int_fits t (fst p)) l -> binary bits ->
  mask_fits bits (zarr t n l) \/ has_char "0"%char (zfill (Z.to_nat (8 * itemsize t)) bits) = false -> Forall (fun p => snd p = false) l ->
  exists f, apply_bitmask nn None bits (zarr t n l) = Ok (zarr t n (map (fun p => (f (fst p), false)) l)) /\
    forall p, In p l -> bits_kept (width_of (zarr t n l)) bits (fst p) (f (fst p)) /\ int_fits t (f (fst p)).
Proof.
  intros T F B M U. unfold apply_bitmask. change (ptype_of (zarr t n l)) with t. destruct (has_char _ _) eqn:H; cbn [negb].
  - destruct M as [M|M]; [|discriminate]. destruct T as (s & b & -> & Nb). pose proof (mask_value_fits bits (zarr (TNum (DInt s b)) n l) s b eq_refl Nb M) as V. rewrite bit_value_zfill.
    change (cells (zarr (TNum (DInt s b)) n l)) with (map cell_of l). rewrite (and_all_ok (TNum (DInt s b)) n l (bit_value bits) (fun _ => true) l); [|now exists s, b|exact V]. eexists (fun z => Z.land z (bit_value bits)). split; [reflexivity|].
    intros p Hp. split; [apply land_kept|]. rewrite Forall_forall in F. apply land_fits; [exact Nb|now apply F|exact V|apply bit_value_nonneg].
  - exists (fun z => z). split.
    + f_equal. unfold zarr. f_equal. f_equal. rewrite <- (map_id l) at 1. apply map_ext_in. intros [z m] Hp. rewrite Forall_forall in U. specialize (U _ Hp). cbn in *. now subst.
    + intros p Hp. rewrite Forall_forall in F. split; [|now apply F]. destruct T as (s & b & -> & Nb). intros i Hi. unfold width_of in Hi. cbn [ptype_of zarr itemsize] in *.
      rewrite (zfill_ones _ bits i B H) by lia. now rewrite andb_true_r.
Qed.

Lemma bitmask_some nn bits t n l c : machine_int t -> Forall (fun p => int_fits t (fst p)) l -> binary bits ->
  mask_fits bits (zarr t n l) -> Forall (fun p => snd p = false) l -> (forall z, special_int c z -> int_fits t z) ->
  (exists p, In p l /\ special_int c (fst p)) ->
  exists f, apply_bitmask nn (Some c) bits (zarr t n l) = Ok (zarr t n (map (fun p => (f (fst p), false)) l)) /\
    forall p, In p l -> (special_int c (fst p) -> f (fst p) = fst p) /\ (~ special_int c (fst p) -> bits_kept (width_of (zarr t n l)) bits (fst p) (f (fst p))) /\ int_fits t (f (fst p)).
Proof.
  intros T F B M U Fc (p0 & Hp0 & S0). unfold apply_bitmask. change (ptype_of (zarr t n l)) with t. destruct (has_char _ _) eqn:H; cbn [negb].
  - rewrite mask_unmasked, (proj2 (fill_int t c T) Fc). cbn [rbind fst snd].
    assert (Ex : existsb (applied t) c = true).
    { apply masking_iff in S0 as (k & I & V). apply existsb_exists. exists (k, CI (fst p0)). split; [exact I|]. unfold applied. cbn [fst snd]. now rewrite V, compatible_int. }
    rewrite Ex. cbn [negb]. rewrite zarr_masked.
    assert (Em : existsb snd (map (fun p => (fst p, snd p || hit t c (EI (fst p)))) l) = true).
    { apply existsb_exists. exists (fst p0, snd p0 || hit t c (EI (fst p0))). split; [apply in_map_iff; now exists p0|]. cbn [snd]. apply orb_true_iff. right. now apply hit_int. }
    rewrite Em. rewrite bit_value_zfill. destruct T as (s & b & -> & Nb). set (t := TNum (DInt s b)) in *. assert (T : machine_int t) by now exists s, b.
    pose proof (mask_value_fits bits (zarr t n l) s b eq_refl Nb M) as V.
    change (cells (zarr t n (map (fun p => (fst p, snd p || hit t c (EI (fst p)))) l))) with (map cell_of (map (fun p => (fst p, snd p || hit t c (EI (fst p)))) l)).
    rewrite (and_all_ok t n _ (bit_value bits) (fun p => negb (snd p)) l T V). rewrite map_map. cbn [fst snd cell_of].
    exists (fun z => if hit t c (EI z) then z else Z.land z (bit_value bits)). split.
    + f_equal. unfold zarr. f_equal. f_equal. apply map_ext_in. intros [z m] Hp. rewrite Forall_forall in U. specialize (U _ Hp). cbn [fst snd] in *. subst m. cbn [orb]. now destruct (hit t c (EI z)).
    + intros p Hp. rewrite Forall_forall in F. specialize (F p Hp). split; [|split].
      * intros Sp. apply (hit_int t c _ T) in Sp. now rewrite Sp.
      * intros Sp. destruct (hit t c (EI (fst p))) eqn:E; [apply (hit_int t c _ T) in E; tauto|]. apply land_kept.
      * destruct (hit t c _); [exact F|]. apply land_fits; [exact Nb|exact F|exact V|apply bit_value_nonneg].
  - exists (fun z => z). split.
    + f_equal. unfold zarr. f_equal. f_equal. rewrite <- (map_id l) at 1. apply map_ext_in. intros [z m] Hp. rewrite Forall_forall in U. specialize (U _ Hp). cbn in *. now subst.
    + intros p Hp. rewrite Forall_forall in F. split; [reflexivity|]. split; [|now apply F]. intros _. destruct T as (s & b & -> & Nb). intros i Hi. unfold width_of in Hi. cbn [ptype_of zarr itemsize] in *.
      rewrite (zfill_ones _ bits i B H) by lia. now rewrite andb_true_r.
Qed.
(** none of the constants occurs *)
Lemma bitmask_absent nn bits t n l c : machine_int t -> Forall (fun p => snd p = false) l -> (forall z, special_int c z -> int_fits t z) ->
  has_char "0"%char (zfill (Z.to_nat (8 * itemsize t)) bits) = true -> (forall p, In p l -> ~ special_int c (fst p)) ->
  apply_bitmask nn (Some c) bits (zarr t n l) =
    if existsb (applied t) c then if nn then Err ValueError else and_where (zarr t n l) (bit_value bits) (fun i _ => Nat.eqb i 0) (map cell_of l) else Err AttributeError.
Proof.
  intros T U Fc H N. unfold apply_bitmask. change (ptype_of (zarr t n l)) with t. rewrite H. cbn [negb].
  rewrite mask_unmasked, (proj2 (fill_int t c T) Fc). cbn [rbind fst snd]. destruct (existsb (applied t) c); [|reflexivity]. cbn [negb]. rewrite zarr_masked.
  assert (Em : existsb snd (map (fun p => (fst p, snd p || hit t c (EI (fst p)))) l) = false).
  { destruct (existsb _ _) eqn:E; [|reflexivity]. apply existsb_exists in E as (q & Hq & E). apply in_map_iff in Hq as (p & <- & Hp). cbn [snd] in E. apply orb_true_iff in E as [E|E].
    - rewrite Forall_forall in U. rewrite (U _ Hp) in E. discriminate.
    - apply (hit_int t c _ T) in E. now destruct (N p Hp). }
  rewrite Em, bit_value_zfill. reflexivity.
Qed.
Lemma zero_char bits a : machine_int (ptype_of a) -> some_zero bits a -> has_char "0"%char (zfill (Z.to_nat (8 * itemsize (ptype_of a))) bits) = true \/ ~ binary bits.
Proof.
  intros (s & b & E & B) (i & Hi & M). unfold width_of in Hi. rewrite E in *. cbn [itemsize].
  destruct (has_char _ _) eqn:H; [now left|right]. intros Bn. rewrite (zfill_ones _ bits i Bn H) in M by lia. discriminate.
Qed.
Lemma trivial_iff s o : no_scaling s && no_offset o = true <-> without_scaling s o.
Proof.
  unfold without_scaling. rewrite andb_true_iff. destruct s as [s|], o as [o|]; cbn [no_scaling no_offset factor]; rewrite ?Qeq_bool_iff; split; intros [A B]; split; try exact A; try exact B; reflexivity.
Qed.
Lemma nontrivial_iff s o : no_scaling s && no_offset o = false <-> ~ without_scaling s o.
Proof. rewrite <- trivial_iff. now destruct (_ && _). Qed.
