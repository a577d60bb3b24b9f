(** Lemmas for C80. *)
From Coq Require Import QArith Qabs Lqa Lia.
From Verif.Base Require Import Py PyFacts Val Numpy Float.
From Verif.Model Require Import Types Scaling Pds4Types Image PdsImage.
From Verif.Model Require Array.
From Verif.Spec Require Import Scaling Pds4Values Array PdsScaled.
From Verif.Spec Require PdsImage.
From Verif.Proofs Require Import Scaling Array PdsImage.
Open Scope Z_scope.

(** ** IEEE numbers are numbers of their type *)
Lemma ieee_on_grid e m s x f q : 0 < m -> 1 < e -> 0 <= x < 2 ^ e -> 0 <= f < 2 ^ m -> ieee_fields e m s x f (Fin q) ->
  exists k n, (q == inject_Z n * two_to k)%Q /\ Z.abs n < 2 ^ (m + 1) /\ 1 - (2 ^ (e - 1) - 1) - m <= k <= 2 ^ e - 2 - (2 ^ (e - 1) - 1) - m.
Proof.
  intros M E X F H. unfold ieee_fields in H. set (bias := 2 ^ (e - 1) - 1) in *. assert (P : 2 ^ (m + 1) = 2 * 2 ^ m) by (rewrite Z.pow_add_r by lia; lia).
  assert (E2 : 4 <= 2 ^ e) by (apply (Z.pow_le_mono_r 2 2); lia).
  destruct (x =? 2 ^ e - 1) eqn:C. { destruct H as [[_ H]|[_ H]]; discriminate H. }
  apply Z.eqb_neq in C. destruct H as (q' & [= <-] & H). destruct (x =? 0) eqn:C0.
  - apply Z.eqb_eq in C0. subst x. exists (1 - bias - m), ((if s then -1 else 1) * f). split; [exact H|]. split; [destruct s; lia|]. lia.
  - apply Z.eqb_neq in C0. exists (x - bias - m), ((if s then -1 else 1) * (2 ^ m + f)). split; [|split; [destruct s; lia|lia]].
    rewrite H. replace (x - bias) with ((x - bias - m) + m) by lia. rewrite two_to_add, inject_Z_mult, inject_Z_plus, <- (two_to_Z m) by lia.
    pose proof (two_to_nz m). replace (x - bias - m + m - m) with (x - bias - m) by lia. field. assumption.
Qed.
Lemma abs_bound n k a b (q : Q) : (q == inject_Z n * two_to k)%Q -> Z.abs n <= a -> 0 <= k <= b \/ k < 0 -> 0 <= b -> (Qabs q <= inject_Z (a * 2 ^ b))%Q.
Proof.
  intros -> N K B. rewrite Qabs_Qmult, (Qabs_pos (two_to k)) by (apply Qlt_le_weak, two_to_pos). rewrite inject_Z_mult, <- two_to_Z by assumption.
  assert (L : (two_to k <= two_to b)%Q) by (apply two_to_le; lia). assert (N' : (Qabs (inject_Z n) <= inject_Z a)%Q).
  { unfold Qabs, inject_Z, Qle. cbn. lia. }
  pose proof (two_to_pos k). pose proof (Qabs_nonneg (inject_Z n)). apply Qle_trans with (inject_Z a * two_to k)%Q; [apply Qmult_le_compat_r; lra|].
  rewrite !(Qmult_comm (inject_Z a)). apply Qmult_le_compat_r; lra.
Qed.
Lemma float_held o w q bs : In w [4; 8]%nat -> float_in o w (Fin q) bs -> Scaling.holds (if (w =? 4)%nat then DF32 else DF64) q.
Proof.
  intros W (u & _ & _ & H). destruct W as [<-|[<-|[]]]; cbn [Nat.eqb] in *; destruct H as (s & x & f & _ & X & F & H).
  - destruct (ieee_on_grid 8 23 s x f q eq_refl eq_refl X F H) as (k & n & E & N & K).
    change (2 ^ (23 + 1)) with 16777216 in N. change (1 - (2 ^ (8 - 1) - 1) - 23) with (-149) in K. change (2 ^ 8 - 2 - (2 ^ (8 - 1) - 1) - 23) with 104 in K.
    split; [exists n, k; split; [exact E|]; split; [exact N|apply K]|]. unfold largest32. apply (abs_bound n k (2 ^ 24 - 1) 104 q E); [change (2 ^ 24 - 1) with 16777215| |]; lia.
  - destruct (ieee_on_grid 11 52 s x f q eq_refl eq_refl X F H) as (k & n & E & N & K).
    change (2 ^ (52 + 1)) with 9007199254740992 in N. change (1 - (2 ^ (11 - 1) - 1) - 52) with (-1074) in K. change (2 ^ 11 - 2 - (2 ^ (11 - 1) - 1) - 52) with 971 in K.
    split; [exists n, k; split; [exact E|]; split; [exact N|apply K]|]. unfold largest64. apply (abs_bound n k (2 ^ 53 - 1) 971 q E); [change (2 ^ 53 - 1) with 9007199254740991| |]; lia.
Qed.

(** ** The type of what is loaded *)
Lemma loaded_as m name type w o f p : says_samples m name type w o f -> properties_of m name = Ok p -> loaded_type p = Ok (element_type f w).
Proof.
  intros H E.
  assert (K : is_vax p = false /\ exists dt, styp p = Some dt /\ numpy_meaning dt = Some (t_of o f w)).
  { unfold properties_of in E. destruct H as [(Q & B & S & T)|(Q & T & c & C & B & S)].
    - assert (Qb : contains $"QUBE" name = false). { destruct (contains $"QUBE" name) eqn:X; [|reflexivity]. apply contains_iff in X. now elim Q. }
      rewrite Qb in E. destruct (image_of m) as [b|] eqn:I; cbn [rbind] in E; [|discriminate].
      assert (Hb : SAMPLE_BITS b = (8 * w)%nat /\ SAMPLE_TYPE b = type).
      { unfold image_of in I. rewrite (required_count _ _ _ B), (given_text _ _ _ S) in I. cbn [rbind] in I.
        repeat match type of I with rbind ?e _ = _ => destruct e; cbn [rbind] in I; [|discriminate I] end. now injection I as <-. }
      destruct Hb as [Hb Ht]. destruct (image_typed _ _ _ _ T) as (dt & (N & Ty & _) & M). destruct (type_named _ _ _ _ T) as [_ V].
      assert (ES : im_sample_type b = Ok (Some dt)). { unfold im_sample_type. rewrite Ht, Hb, bytes_of_bits. destruct type as [|c0 type]; [now elim N|]. now rewrite Ty. }
      unfold generic_image_properties in E. rewrite ES, Ht in E. cbn [rbind] in E.
      repeat match type of E with rbind ?e _ = _ => destruct e; cbn [rbind] in E; [|discriminate E] end. injection E as <-. cbn [is_vax styp].
      split; [|now exists dt]. destruct (str_eqb type $"VAX_REAL") eqn:EV; [apply str_eqb_eq in EV; now elim V|exact EV].
    - assert (Qb : contains $"QUBE" name = true) by now apply contains_iff. rewrite Qb in E.
      destruct (sample_type_query m); cbn [rbind] in E; [|discriminate]. destruct (qube_of m) as [b|] eqn:I; cbn [rbind] in E; [|discriminate].
      assert (Hb : CORE_ITEM_BYTES b = w /\ CORE_ITEM_TYPE b = type).
      { unfold qube_of in I. assert (Uc : match md_get m $"CORE" with None => Ok m | Some (PMulti c) | Some (PDict c) => Ok c | Some _ => Err AttributeError end = Ok c).
        { destruct C as [[C ->]|C]; now rewrite C. }
        rewrite Uc in I. cbn [rbind] in I. rewrite (required_count _ _ _ B), (required_text _ _ _ S) in I. cbn [rbind] in I.
        repeat match type of I with rbind ?e _ = _ => destruct e; cbn [rbind] in I; [|discriminate I] end. now injection I as <-. }
      destruct Hb as [Hb Ht]. destruct (qube_typed _ _ _ _ T) as (dt & (N & Ty & _) & M). destruct T as [T _]. destruct (type_named _ _ _ _ T) as [_ V].
      unfold generic_qube_properties in E. rewrite Ht, Hb, Ty in E. cbn [rbind] in E.
      repeat match type of E with rbind ?e _ = _ => destruct e; cbn [rbind] in E; [|discriminate E] end. injection E as <-. cbn [is_vax styp].
      split; [|now exists dt]. destruct (str_eqb type $"VAX_REAL") eqn:EV; [apply str_eqb_eq in EV; now elim V|exact EV]. }
  assert (T : pds3_type type w o f) by (destruct H as [(_ & _ & _ & T)|(_ & [T _] & _)]; exact T).
  destruct K as (V & dt & S & M). unfold loaded_type. rewrite V, S, M. apply pds3_width in T. now destruct f as [[]| |].
Qed.
Lemma samples_width m name type w o f : says_samples m name type w o f -> match f with Integer _ => In w [1; 2; 4; 8] | Ieee => In w [4; 8] | Pair => False end%nat.
Proof. intros [(_ & _ & _ & T)|(_ & [T _] & _)]; now apply pds3_width in T. Qed.
Definition nd_of (d : dt) (a : arr Array.cell) : ndarray := mkNd d (mkArr (shape a) (fun idx => element (at_ a idx))).
Lemma nd_typed o f w a : match f with Integer _ => In w [1; 2; 4; 8] | Ieee => In w [4; 8] | Pair => False end%nat ->
  elements_are o f w a -> well_typed (nd_of (element_type f w) a).
Proof.
  intros W H. split.
  { destruct f as [s| |]; cbn [nd_of dtype element_type] in *; [|now destruct (w =? 4)%nat|contradiction]. unfold proper_type, numpy_int.
    cbn in W. decompose [or] W; try contradiction; subst w; cbn; auto. }
  cbn [nd_of elems shape at_ dtype]. intros idx V. destruct (H idx V) as (bs & p & -> & Hp). destruct f as [s| |]; cbn [pixel_holds] in Hp; [| |contradiction].
  - destruct Hp as (v & [= ->] & R & _). cbn [element val element_type]. exists v. split; [reflexivity|]. destruct s; exact R.
  - destruct Hp as (v & [= ->] & R). cbn [element val element_type]. destruct v as [q| |]; [now apply float_held in R| |]; now destruct (w =? 4)%nat.
Qed.
Lemma nd_unmasked d a idx : masked (at_ (elems (nd_of d a)) idx) = false.
Proof. cbn [nd_of elems at_]. now destruct (at_ a idx) as [[]|]. Qed.

(** ** Constants *)
Lemma set_keys {A} (d : list (str * A)) k v : NoDup (map fst d) -> NoDup (map fst (dict_set d k v)).
Proof.
  intros H. assert (In_ : forall x, In x (map fst (dict_set d k v)) -> x = k \/ In x (map fst d)).
  { clear H. induction d as [|[k' v'] d IH]; cbn [dict_set]; intros x I; [destruct I as [<-|[]]; now left|].
    destruct (str_eqb_spec k' k) as [->|N]; [cbn in *; tauto|]. cbn in I |- *. destruct I as [<-|I]; [auto|]. destruct (IH x I); auto. }
  induction d as [|[k' v'] d IH]; cbn [dict_set]; [repeat constructor; intros []|]. cbn in H. inversion H as [|? ? N ND]; subst.
  destruct (str_eqb_spec k' k) as [->|Ne]; [exact H|]. cbn. constructor.
  - intros I. assert (I' : In k' (map fst (dict_set ((k', v') :: d) k v))) by (cbn [dict_set]; destruct (str_eqb_spec k' k); [now elim Ne|cbn; now left]).
    clear I'. assert (G : forall x, In x (map fst (dict_set d k v)) -> x = k \/ In x (map fst d)).
    { clear. induction d as [|[a b] d IH]; cbn [dict_set]; intros x I; [destruct I as [<-|[]]; now left|].
      destruct (str_eqb_spec a k) as [->|N]; [cbn in *; tauto|]. cbn in I |- *. destruct I as [<-|I]; [auto|]. destruct (IH x I); auto. }
    destruct (G _ I); [now elim Ne|contradiction].
  - apply IH; [exact ND|]. clear. induction d as [|[a b] d IH]; cbn [dict_set]; intros x I; [destruct I as [<-|[]]; now left|].
    destruct (str_eqb_spec a k) as [->|N]; [cbn in *; tauto|]. cbn in I |- *. destruct I as [<-|I]; [auto|]. destruct (IH x I); auto.
Qed.
Lemma names_distinct : NoDup PDS3_CONSTANT_NAMES.
Proof.
  apply (NoDup_count_occ' (list_eq_dec ascii_dec)).
  assert (H : forallb (fun x => (count_occ (list_eq_dec ascii_dec) PDS3_CONSTANT_NAMES x =? 1)%nat) PDS3_CONSTANT_NAMES = true) by (vm_compute; reflexivity).
  intros x I. rewrite forallb_forall in H. now apply Nat.eqb_eq, H.
Qed.
Lemma found_keys block a l : find_special_constants block a = Ok l -> NoDup (map fst l).
Proof.
  unfold find_special_constants. destruct (explicit_constants block) as [ex|] eqn:Ex; cbn [rbind]; [|discriminate].
  assert (NE : NoDup (map fst ex)).
  { unfold explicit_constants in Ex. apply rmap_spec in Ex. pose proof (NoDup_filter (fun name => match md_get block name with None => false | Some (PStr s) => negb (str_eqb s $"N/A") | Some _ => true end) names_distinct) as N.
    match type of Ex with Forall2 _ ?n _ => set (names := n) in * end. assert (map fst ex = names); [|congruence]. clear N. clearbody names.
    induction Ex as [|n kv names l' E F IH]; [reflexivity|]. cbn [map]. f_equal; [|exact IH].
    destruct (match md_get block n with Some (PTuple (x :: _)) => _ | _ => _ end) as [v|]; cbn [rbind] in E; [|discriminate].
    destruct (const_of v); cbn [rbind] in E; [|discriminate]. now injection E as <-. }
  destruct (str_eqb _ _); [now intros [= <-]|]. destruct (implicit_constants _) as [im|]; [|discriminate]. intros [= <-].
  generalize (filter (fun kv : str * Q => existsb (equals_in (dtype a) (implicit_scalar (snd kv))) (values a)) im). intros l.
  match goal with |- context [fold_left _ _ ?b] => assert (NB : NoDup (map fst b)) by (destruct (forallb _ _); [exact NE|now apply set_keys]); revert NB; generalize b end.
  induction l as [|kv l IH]; intros d N; [exact N|].
  cbn [fold_left]. apply IH. now apply set_keys.
Qed.
Lemma in_dict {A} (l : list (str * A)) n c : NoDup (map fst l) -> In (n, c) l <-> dict_get l n = Some c.
Proof.
  intros N. unfold dict_get. split.
  - induction l as [|[k v] l IH]; intros I; [easy|]. cbn [find fst]. cbn in N. inversion N as [|? ? X Y]; subst. destruct I as [[= -> ->]|I].
    + rewrite str_eqb_refl. reflexivity.
    + destruct (str_eqb_spec k n) as [->|Ne]; [|now apply IH]. elim X. change n with (fst (n, c)). now apply in_map.
  - destruct (find _ l) as [kv|] eqn:F; [|discriminate]. intros [= <-]. apply find_some in F. destruct F as [I E]. apply str_eqb_eq in E. destruct kv. cbn in *. now subst.
Qed.
(** ** Bytes hold one integer *)
Lemma digits_mod w v v' : (forall j, (j < w)%nat -> (v / 256 ^ Z.of_nat j) mod 256 = (v' / 256 ^ Z.of_nat j) mod 256) -> v mod 256 ^ Z.of_nat w = v' mod 256 ^ Z.of_nat w.
Proof.
  induction w as [|w IH]; intros H; [now rewrite !Z.mod_1_r|]. rewrite Nat2Z.inj_succ, Z.pow_succ_r, Z.mul_comm by lia.
  assert (0 < 256 ^ Z.of_nat w) by (apply Z.pow_pos_nonneg; lia). rewrite !Z.rem_mul_r by lia. rewrite IH by (intros j J; apply H; lia). rewrite (H w) by lia. reflexivity.
Qed.
Lemma written_unique o sg w v v' bs : (0 < w)%nat -> of_width sg w v -> of_width sg w v' -> written o w v bs -> written o w v' bs -> v = v'.
Proof.
  intros P R R' [_ H] [_ H']. assert (E : v mod 256 ^ Z.of_nat w = v' mod 256 ^ Z.of_nat w).
  { apply digits_mod. intros j J. set (i := place o w j). assert (I : (i < w)%nat) by (unfold i, place; destruct o; lia).
    assert (Pi : place o w i = j) by (unfold i, place; destruct o; lia). specialize (H i I). specialize (H' i I). rewrite Pi in H, H'. congruence. }
  assert (E2 : 256 ^ Z.of_nat w = 2 ^ (8 * Z.of_nat w)) by (rewrite Z.pow_mul_r by lia; reflexivity). rewrite E2 in E.
  assert (E3 : 2 ^ (8 * Z.of_nat w) = 2 * 2 ^ (8 * Z.of_nat w - 1)) by (rewrite <- Z.pow_succ_r by lia; f_equal; lia).
  unfold of_width in R, R'. set (n := 8 * Z.of_nat w) in *. assert (0 < 2 ^ (n - 1)) by (apply Z.pow_pos_nonneg; lia).
  assert (D : exists k, v - v' = k * 2 ^ n). { exists (v / 2 ^ n - v' / 2 ^ n). pose proof (Z.div_mod v (2 ^ n) ltac:(lia)). pose proof (Z.div_mod v' (2 ^ n) ltac:(lia)). lia. }
  destruct D as [k D]. assert (k = 0); [|subst k; lia]. destruct sg; cbv zeta in R, R'; nia.
Qed.
