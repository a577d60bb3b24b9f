(** Property C80: get_scaled of PDS3 images and qubes. *)
From Coq Require Import QArith Qabs Lqa Lia.
From Verif.Base Require Import Py PyFacts Val Numpy Float.
From Verif.Model Require Import Types Scaling Image Position PdsImage.
From Verif.Model Require Array.
From Verif.Spec Require Import Scaling Types Pds4Values Image Position PdsScaled.
From Verif.Spec Require Array PdsImage.
From Verif.Proofs Require Import Scaling PdsScaled.
From Verif.Properties Require Import Scaling.
From Verif.Properties Require PdsImage.
Open Scope Z_scope.

(** masked first, then scaled *)
Lemma get_scaled_masks special block a ip fd l :
  (special = [] /\ find_special_constants block a = Ok l) \/ (special <> [] /\ l = special) ->
  get_scaled special block a ip fd = scale_array block (match l with [] => a | _ => mask_specials a (map snd l) end) ip fd.
Proof.
  intros H. unfold get_scaled. assert (E : match special with [] => find_special_constants block a | _ => Ok special end = Ok l).
  { destruct H as [[-> E]|[N ->]]; [exact E|]. now destruct special. }
  now rewrite E.
Qed.
Lemma integer_value d a idx z : integer_at a idx z -> val (at_ (elems (nd_of d a)) idx) = Fin (inject_Z z).
Proof. intros [_ E]. cbn [nd_of elems at_]. now rewrite E. Qed.
Lemma value_integer o sg w d a idx : elements_are o (Integer sg) w a -> valid (shape a) idx -> exists z, integer_at a idx z /\ val (at_ (elems (nd_of d a)) idx) = Fin (inject_Z z).
Proof.
  intros H V. destruct (H idx V) as (bs & p & E & v & Ev & _). injection Ev as ->. assert (I : integer_at a idx v) by now split. exists v. split; [exact I|now apply integer_value].
Qed.
Lemma table_integral d name q : proper_type d -> ~ is_float d -> customary d name q -> exists z, q = inject_Z z /\ implicit_scalar q = SI z.
Proof.
  intros P F (l & E & I). assert (H : forallb (fun kv : str * Q => (Z.pos (Qden (snd kv)) =? 1)) l = true).
  { destruct d as [s b| |]; [|now elim F|now elim F]. destruct P as [->|[->|[->| ->]]]; destruct s; vm_compute in E; try discriminate E; injection E as <-; vm_compute; reflexivity. }
  rewrite forallb_forall in H. specialize (H _ I). cbn [snd] in H. destruct q as [n dn]. cbn [Qden] in H. apply Z.eqb_eq in H. assert (dn = 1%positive) by lia. subst dn.
  exists n. split; [reflexivity|]. unfold implicit_scalar. assert (N : int_of (n # 1) = n) by (apply int_of_Z; reflexivity). rewrite N.
  change (n # 1) with (inject_Z n). rewrite (proj2 (Qeq_bool_iff _ _) (Qeq_refl _)). reflexivity.
Qed.
(** constants of integer images *)
Lemma integer_image_constants m sg w o a : In w [1; 2; 4; 8]%nat -> elements_are o (Integer sg) w a -> integer_constants m -> ~ (sg = false /\ w = 8%nat) ->
  let d := DInt sg (Z.of_nat w) in
  exists l, find_special_constants m (nd_of d a) = Ok l /\ integers_only l /\
    forall z, (exists idx, integer_at a idx z) ->
      ((exists name, In (name, CNum (SI z)) l) <-> special_integer m d (fun y => exists idx, integer_at a idx y) z).
Proof.
  intros W H C N8 d. assert (WT : well_typed (nd_of d a)) by now apply (nd_typed o (Integer sg) w a).
  assert (P : proper_type d) by apply WT.
  destruct (C27_finds m (nd_of d a)) as [l L]; [exact P|cbn [nd_of dtype]; intros E; injection E as -> E; apply N8; split; [reflexivity|lia]| |].
  { intros name v I E. destruct (C name v I E) as [->|[z Hz]]; [now left|]. right. exists (SI z). split; [exact I|]. exists (PInt z). split; [constructor|].
    destruct Hz as [->|[vs ->]]; [now left|right; now exists vs]. }
  pose proof (found_keys _ _ _ L) as ND. pose proof (C27_found m (nd_of d a) l P L) as FO.
  assert (Lab : forall name k, label_constant m name k -> exists z, k = SI z).
  { intros name k (I & v & Nv & [E|[vs E]]); destruct (C name _ I E) as [X|[z [X|[vs' X]]]]; try discriminate X.
    - subst v. inversion Nv. - subst v. inversion Nv. eauto. - subst v. inversion Nv. - injection X as -> _. inversion Nv. eauto. }
  assert (CF : forall name q, customary_found (nd_of d a) name q <-> ~ is_uint8 d /\ customary d name q /\ exists y idx, integer_at a idx y /\ q = inject_Z y).
  { intros name q. unfold customary_found, present, contains_value. cbn [nd_of dtype elems shape]. split.
    - intros (U & K & idx & x & V & Ex & Eq). split; [exact U|]. split; [exact K|]. destruct (value_integer o sg w d a idx H V) as (z & Iz & Ez).
      assert (Ex' : val (at_ (elems (nd_of d a)) idx) = Fin x) by exact Ex. rewrite Ez in Ex'. injection Ex' as <-. destruct (table_integral d name q P (fun x => x) K) as (y & -> & _).
      exists z, idx. split; [exact Iz|]. assert (Eq' : (inject_Z z == inject_Z y)%Q) by exact Eq. apply (proj1 (inject_Z_injective _ _)) in Eq'. now subst.
    - intros (U & K & y & idx & I & ->). split; [exact U|]. split; [exact K|]. exists idx, (inject_Z y). split; [apply I|]. split; [now apply (integer_value d)|reflexivity]. }
  exists l. split; [exact L|]. split.
  - apply Forall_forall. intros [name c] I. cbn [snd]. apply in_dict in I; [|exact ND]. apply FO in I.
    destruct I as [(q & k & K & -> & _ & ->)|(_ & [(_ & (idx & V & NF) & _)|(k & -> & K)])].
    + apply CF in K. destruct K as (_ & K & _). destruct (table_integral d name q P (fun x => x) K) as (z & _ & ->). eauto.
    + cbn [nd_of elems shape] in V. destruct (value_integer o sg w d a idx H V) as (z & _ & E). now elim (NF _ E).
    + destruct (Lab _ _ K) as [z ->]. eauto.
  - intros z Z. split.
    + intros [name I]. apply in_dict in I; [|exact ND]. apply FO in I. exists name. destruct I as [(q & k & K & [= <-] & Eq & _)|(NC & [(_ & _ & _ & X)|(k & [= <-] & K)])]; [left|discriminate X|right].
      * apply CF in K. destruct K as (U & K & _). split; [exact U|]. destruct (table_integral d name q P (fun x => x) K) as (y & -> & _). assert (Eq' : (inject_Z z == inject_Z y)%Q) by exact Eq. apply (proj1 (inject_Z_injective _ _)) in Eq'. now subst.
      * exists (SI z). split; [exact K|]. split; [reflexivity|]. intros y [idx Y] U Cy. apply (NC (inject_Z y)). apply CF. split; [exact U|]. split; [exact Cy|]. now exists y, idx.
    + intros [name [[U K]|(k & K & E & N)]]; exists name; apply in_dict; try exact ND; apply FO.
      * left. destruct Z as [idx Z]. exists (inject_Z z), (SI z). split; [apply CF; split; [exact U|]; split; [exact K|]; now exists z, idx|]. split; [reflexivity|]. split; [reflexivity|].
        destruct (table_integral d name _ P (fun x => x) K) as (y & Ey & ->). apply (f_equal Qnum) in Ey. cbn in Ey. now subst.
      * right. split.
        { intros q X. apply CF in X. destruct X as (U & X & y & idx & Y & ->). apply (N y); [now exists idx|exact U|exact X]. }
        right. destruct (Lab _ _ K) as [y ->]. assert (E' : (inject_Z y == inject_Z z)%Q) by exact E. apply (proj1 (inject_Z_injective _ _)) in E'. subst y. now exists (SI z).
Qed.
(** masking an image of integers *)
Lemma integer_image_masked special m sg w o a : In w [1; 2; 4; 8]%nat -> elements_are o (Integer sg) w a ->
  (special = [] -> integer_constants m /\ ~ (sg = false /\ w = 8%nat)) -> integers_only special ->
  let d := DInt sg (Z.of_nat w) in
  exists a', (forall ip fd, get_scaled special m (nd_of d a) ip fd = scale_array m a' ip fd) /\ well_typed a' /\ dtype a' = d /\ shape (elems a') = shape a /\
    forall idx z, integer_at a idx z -> val (at_ (elems a') idx) = Fin (inject_Z z) /\
      (masked (at_ (elems a') idx) = true <-> masks special m d (fun y => exists idx, integer_at a idx y) z).
Proof.
  intros W H C IS d. assert (WT : well_typed (nd_of d a)) by now apply (nd_typed o (Integer sg) w a).
  assert (L : exists l, ((special = [] /\ find_special_constants m (nd_of d a) = Ok l) \/ (special <> [] /\ l = special)) /\ integers_only l /\
    forall z, (exists idx, integer_at a idx z) -> ((exists name, In (name, CNum (SI z)) l) <-> masks special m d (fun y => exists idx, integer_at a idx y) z)).
  { unfold masks. destruct special as [|kc special].
    - destruct (C eq_refl) as [C1 C2]. destruct (integer_image_constants m sg w o a W H C1 C2) as (l & L & I & M). exists l. split; [left; now split|]. split; [exact I|].
      intros z Z. rewrite (M z Z). split; [intros K; left; now split|]. intros [[_ K]|[name []]]. exact K.
    - exists (kc :: special). split; [right; split; [discriminate|reflexivity]|]. split; [exact IS|]. intros z Z. split; [now right|]. intros [[X _]|K]; [discriminate X|exact K]. }
  destruct L as (l & Hl & IL & ML).
  exists (match l with [] => nd_of d a | _ => mask_specials (nd_of d a) (map snd l) end). split; [intros ip fd; now apply get_scaled_masks|].
  destruct l as [|kc l].
  - split; [exact WT|]. split; [reflexivity|]. split; [reflexivity|]. intros idx z Z. split; [now apply integer_value|]. rewrite nd_unmasked, <- (ML z) by now exists idx.
    split; [discriminate|]. now intros [name []].
  - set (l' := kc :: l) in *. clearbody l'. clear l kc.
    destruct (C27_mask (nd_of d a) (map snd l') WT) as (D & Sh & MV).
    { left. split; [intros []|]. unfold integers_only in IL. rewrite Forall_forall in IL. split.
      - apply Forall_forall. intros c I. apply in_map_iff in I. destruct I as (kc & <- & I). destruct (IL _ I) as [z ->]. cbn. eauto.
      - intros I. apply in_map_iff in I. destruct I as (kc & E & I). destruct (IL _ I) as [z Ez]. congruence. }
    set (a' := mask_specials (nd_of d a) (map snd l')) in *. clearbody a'. change (shape (elems (nd_of d a))) with (shape a) in Sh, MV. change (dtype (nd_of d a)) with d in D. split; [|split; [exact D|split; [exact Sh|]]].
    + destruct WT as [P WT]. split; [rewrite D; exact P|]. rewrite Sh, D. intros idx V. destruct (MV idx V) as [-> _]. exact (WT idx V).
    + intros idx z Z. destruct (MV idx (proj1 Z)) as [E M]. rewrite (integer_value d _ _ _ Z) in E, M.
      split; [exact E|]. rewrite M, <- (ML z) by now exists idx. split.
      * intros (k & I & Eq). apply in_map_iff in I. destruct I as ([n c] & Ec & I). cbn in Ec. subst c. unfold integers_only in IL. rewrite Forall_forall in IL.
        destruct (IL _ I) as [y Ey]. cbn in Ey. injection Ey as ->. assert (Eq' : (inject_Z z == inject_Z y)%Q) by exact Eq. apply (proj1 (inject_Z_injective _ _)) in Eq'. subst y. now exists n.
      * intros [n I]. exists (SI z). split; [|reflexivity]. change (CNum (SI z)) with (snd (n, CNum (SI z))). now apply in_map.
Qed.
Lemma scaled_is va special product m target name file mem size ip fd a type w o f :
  load_image va product m target name file mem size = Ok (Some a) -> says_samples m name type w o f ->
  scaled_image va special product m target name file mem size ip fd = get_scaled special m (nd_of (element_type f w) a) ip fd.
Proof.
  intros L S. unfold scaled_image. rewrite L. cbn [rbind]. assert (E : exists p, properties_of m name = Ok p).
  { unfold load_image in L. destruct (data_start_byte _ _ _ _); cbn [rbind] in L; [|discriminate]. destruct (properties_of m name) as [p|]; [eauto|discriminate]. }
  destruct E as [p E]. rewrite E. cbn [rbind]. rewrite (loaded_as _ _ _ _ _ _ _ S E). reflexivity.
Qed.

(** ** Integers by integers: exact *)
Theorem C80_integers va special product m target name type w o sg file mem size fd a s off :
  load_image va product m target name file mem size = Ok (Some a) -> says_samples m name type w o (Integer sg) -> elements_are o (Integer sg) w a ->
  says m $"SCALING_FACTOR" 1 (SI s) -> says m $"OFFSET" 0 (SI off) -> of_width sg w s -> of_width sg w off ->
  (special = [] -> integer_constants m /\ ~ (sg = false /\ w = 8%nat)) -> integers_only special ->
  let masked_ := masks special m (DInt sg (Z.of_nat w)) (fun y => exists idx, integer_at a idx y) in
  (forall idx z, integer_at a idx z -> ~ masked_ z -> of_width sg w (z * s + off)) ->
  exists r, scaled_image va special product m target name file mem size false fd = Ok r /\ dtype r = DInt sg (Z.of_nat w) /\ shape (elems r) = shape a /\
    forall idx z, integer_at a idx z ->
      (masked (at_ (elems r) idx) = true <-> masked_ z) /\
      (~ masked_ z -> exists q, val (at_ (elems r) idx) = Fin q /\ (q == inject_Z (z * s + off))%Q).
Proof.
  intros L S H Hs Ho Ws Wo C IS masked_ Fit. pose proof (samples_width _ _ _ _ _ _ S) as W. cbn in W.
  destruct (integer_image_masked special m sg w o a W H C IS) as (a' & G & WT & D & Sh & MV). fold masked_ in MV.
  destruct (C28_integers m a' fd sg (Z.of_nat w) s off D WT Hs Ho) as (r & E & Dr & Sr & Vr); [now destruct sg|now destruct sg| |].
  { intros idx q V M Eq. rewrite Sh in V. destruct (value_integer o sg w (DInt sg (Z.of_nat w)) a idx H V) as (z & Iz & _). destruct (MV idx z Iz) as [E1 E2].
    rewrite E1 in Eq. injection Eq as <-. rewrite D. exists (z * s + off). split; [now rewrite inject_Z_plus, inject_Z_mult|].
    assert (F : of_width sg w (z * s + off)); [|destruct sg; exact F]. apply (Fit idx z Iz). intros K. apply E2 in K. congruence. }
  exists r. split; [rewrite (scaled_is _ _ _ _ _ _ _ _ _ _ _ _ _ _ _ _ L S); cbn [element_type]; rewrite G; exact E|]. split; [congruence|]. split; [congruence|].
  intros idx z Iz. destruct (MV idx z Iz) as [E1 E2]. specialize (Vr idx). rewrite Sh in Vr. specialize (Vr (proj1 Iz)). cbv zeta in Vr. destruct Vr as [M1 M2].
  split; [now rewrite M1|]. intros K. assert (M0 : masked (at_ (elems a') idx) = false) by (apply not_true_iff_false; now rewrite E2).
  specialize (M2 M0). rewrite E1 in M2. destruct M2 as (q & Eq & Q). exists q. split; [exact Eq|]. now rewrite Q, inject_Z_plus, inject_Z_mult.
Qed.
Print Assumptions C80_integers.
(** integers by real factors: correctly rounded at each step, in the type asked for or in doubles *)
Theorem C80_integers_by_reals va special product m target name type w o sg file mem size fd D a s off :
  load_image va product m target name file mem size = Ok (Some a) -> says_samples m name type w o (Integer sg) -> elements_are o (Integer sg) w a ->
  says m $"SCALING_FACTOR" 1 s -> says m $"OFFSET" 0 off -> is_float D ->
  (fd = Some D /\ ~ (exists x y, s = SI x /\ off = SI y)) \/ (fd = None /\ D = DF64 /\ exists q, s = SF q) -> ~ unscaled s off ->
  (special = [] -> integer_constants m /\ ~ (sg = false /\ w = 8%nat)) -> integers_only special ->
  moderate D (scalar_q s) -> moderate D (scalar_q off) ->
  let masked_ := masks special m (DInt sg (Z.of_nat w)) (fun y => exists idx, integer_at a idx y) in
  (forall idx z, integer_at a idx z -> ~ masked_ z -> moderate D (2 * (inject_Z z * scalar_q s))) ->
  exists r, scaled_image va special product m target name file mem size false fd = Ok r /\ dtype r = D /\ shape (elems r) = shape a /\
    forall idx z, integer_at a idx z ->
      (masked (at_ (elems r) idx) = true <-> masked_ z) /\
      (~ masked_ z -> float_scaled D (scalar_q s) (scalar_q off) (Fin (inject_Z z)) (val (at_ (elems r) idx))).
Proof.
  intros L S H Hs Ho F HD U C IS Ms Mo masked_ Fit. pose proof (samples_width _ _ _ _ _ _ S) as W. cbn in W.
  destruct (integer_image_masked special m sg w o a W H C IS) as (a' & G & WT & D' & Sh & MV). fold masked_ in MV.
  destruct (C28_floats m a' fd D s off WT Hs Ho U F) as (r & E & Dr & Sr & Vr); [right; split; [eauto|exact HD]|exact Ms|exact Mo| |].
  { intros idx q V M Eq. rewrite Sh in V. destruct (value_integer o sg w (DInt sg (Z.of_nat w)) a idx H V) as (z & Iz & _). destruct (MV idx z Iz) as [E1 E2].
    rewrite E1 in Eq. injection Eq as <-. apply (Fit idx z Iz). intros K. apply E2 in K. congruence. }
  exists r. split; [rewrite (scaled_is _ _ _ _ _ _ _ _ _ _ _ _ _ _ _ _ L S); cbn [element_type]; rewrite G; exact E|]. split; [exact Dr|]. split; [congruence|].
  intros idx z Iz. destruct (MV idx z Iz) as [E1 E2]. specialize (Vr idx). rewrite Sh in Vr. specialize (Vr (proj1 Iz)). cbv zeta in Vr. destruct Vr as [M1 M2].
  split; [now rewrite M1|]. intros K. assert (M0 : masked (at_ (elems a') idx) = false) by (apply not_true_iff_false; now rewrite E2).
  specialize (M2 M0). now rewrite E1 in M2.
Qed.
Print Assumptions C80_integers_by_reals.

(** ** Real numbers *)
Lemma real_value d a idx x : real_at a idx x -> val (at_ (elems (nd_of d a)) idx) = x.
Proof. intros [_ E]. cbn [nd_of elems at_]. now rewrite E. Qed.
Lemma value_real o w a idx : elements_are o Ieee w a -> valid (shape a) idx -> exists x, real_at a idx x.
Proof. intros H V. destruct (H idx V) as (bs & p & E & v & Ev & _). injection Ev as ->. exists v. now split. Qed.
Lemma real_image_masked special m w o a : In w [4; 8]%nat -> elements_are o Ieee w a ->
  let d := element_type Ieee w in
  (special = [] -> double_constants m /\ nothing_customary a d) -> doubles_only special ->
  exists a', (forall ip fd, get_scaled special m (nd_of d a) ip fd = scale_array m a' ip fd) /\ well_typed a' /\ dtype a' = d /\ shape (elems a') = shape a /\
    forall idx x, real_at a idx x -> val (at_ (elems a') idx) = x /\ (masked (at_ (elems a') idx) = true <-> masks_real special m x).
Proof.
  intros W H d C IS. assert (WT : well_typed (nd_of d a)) by now apply (nd_typed o Ieee w a).
  assert (P : proper_type d) by apply WT. assert (Fl : is_float d) by (unfold d; cbn; now destruct (w =? 4)%nat).
  assert (NU : ~ is_uint8 d) by (unfold is_uint8; intros E; rewrite E in Fl; exact Fl).
  assert (L : exists l, ((special = [] /\ find_special_constants m (nd_of d a) = Ok l) \/ (special <> [] /\ l = special)) /\
    Forall (fun c => const_number c (fun k => double_exact (scalar_q k))) (map snd l) /\
    forall idx x, real_at a idx x -> (match x with Fin q => exists k, In (CNum k) (map snd l) /\ (q == scalar_q k)%Q | _ => In CNan (map snd l) end <-> masks_real special m x)).
  { unfold masks_real. destruct special as [|kc special].
    - destruct (C eq_refl) as [C1 C2].
      destruct (C27_finds m (nd_of d a)) as [l L]; [exact P|cbn [nd_of dtype]; unfold d; cbn; now destruct (w =? 4)%nat| |].
      { intros name v I E. destruct (C1 name v I E) as [->|[k [K _]]]; [now left|right; now exists k]. }
      pose proof (found_keys _ _ _ L) as ND. pose proof (C27_found m (nd_of d a) l P L) as FO.
      assert (NC : forall name q, ~ customary_found (nd_of d a) name q).
      { intros name q (_ & K & idx & x & V & Ex & Eq). cbn [nd_of elems shape] in V. destruct (value_real o w a idx H V) as [y R]. rewrite (real_value d a idx y R) in Ex. subst y.
        apply (C2 idx x name q R K). rewrite Eq. cbn [nd_of dtype]. destruct d; [elim Fl|reflexivity|reflexivity]. }
      assert (IL : forall name c, In (name, c) l <-> (has_nonfinite (nd_of d a) /\ name = $"INVALIDS" /\ c = CNan) \/ exists k, c = CNum k /\ label_constant m name k).
      { intros name c. rewrite (in_dict l name c ND), FO. split.
        - intros [(q & k & K & _)|(_ & [(_ & K)|K])]; [now elim (NC name q)|now left|now right].
        - intros [K|K]; right; (split; [apply NC|]); [left; split; [exact NU|exact K]|now right]. }
      exists l. split; [left; now split|]. split.
      + apply Forall_forall. intros c I. apply in_map_iff in I. destruct I as ([n c'] & <- & I). cbn [snd]. apply IL in I. destruct I as [(_ & _ & ->)|(k & -> & K)]; [exact Logic.I|].
        pose proof K as (In_ & v & Nv & Ev). cbn. 
        assert (Q : exists v', md_get m n = Some v' /\ v' <> PStr $"N/A") by (destruct Ev as [Ev|[vs Ev]]; eexists; (split; [exact Ev|]); [intros ->; inversion Nv|discriminate]).
        destruct Q as (v' & Ev' & NA). destruct (C1 n v' In_ Ev') as [X|(k' & K' & D)]; [now elim NA|].
        destruct K' as (_ & u & Nu & Eu). assert (EK : scalar_q k = scalar_q k'); [f_equal|rewrite EK; exact D].
        assert (u = v). { destruct Ev as [Ev|[vs Ev]], Eu as [Eu|[us Eu]]; rewrite Ev in Eu; injection Eu as Eu; try (now symmetry); try (subst; now inversion Nv || now inversion Nu). }
        subst u. inversion Nv; subst; inversion Nu; reflexivity.
      + intros idx x R. split.
        * intros K. left. split; [reflexivity|]. destruct x as [q| |]; [right|left; discriminate|left; discriminate].
          destruct K as (k & I & Eq). apply in_map_iff in I. destruct I as ([n c] & Ec & I). cbn in Ec. subst c. apply IL in I.
          destruct I as [(_ & _ & X)|(k' & [= <-] & K)]; [discriminate X|]. now exists n, k, q.
        * intros [[_ K]|(name & k & q & [] & _)]. destruct x as [q| |].
          -- destruct K as [K|(name & k & q' & K & [= <-] & Eq)]; [now elim (K q)|]. exists k. split; [|exact Eq]. change (CNum k) with (snd (name, CNum k)). apply in_map, IL. right. now exists k.
          -- change CNan with (snd ($"INVALIDS", CNan)). apply in_map, IL. left. split; [|now split]. exists idx. split; [apply R|]. intros q. rewrite (real_value d a idx _ R). discriminate.
          -- change CNan with (snd ($"INVALIDS", CNan)). apply in_map, IL. left. split; [|now split]. exists idx. split; [apply R|]. intros q. rewrite (real_value d a idx _ R). discriminate.
    - set (sp := kc :: special) in *. assert (NE : sp <> []) by discriminate. clearbody sp. clear kc special C. exists sp. split; [right; now split|].
      unfold doubles_only in IS. rewrite Forall_forall in IS. split.
      + apply Forall_forall. intros c I. apply in_map_iff in I. destruct I as (kc & <- & I). destruct (IS _ I) as (k & -> & D). exact D.
      + intros idx x R. assert (NN : ~ In CNan (map snd sp)). { intros I. apply in_map_iff in I. destruct I as (kc & E & I). destruct (IS _ I) as (k & E' & _). congruence. }
        split.
        * intros K. right. destruct x as [q| |]; [|now elim NN|now elim NN]. destruct K as (k & I & Eq). apply in_map_iff in I. destruct I as ([n c] & Ec & I). cbn in Ec. subst c. now exists n, k, q.
        * intros [[X _]|(n & k & q & I & -> & Eq)]; [now elim NE|]. exists k. split; [|exact Eq]. change (CNum k) with (snd (n, CNum k)). now apply in_map. }
  destruct L as (l & Hl & DL & ML).
  exists (match l with [] => nd_of d a | _ => mask_specials (nd_of d a) (map snd l) end). split; [intros ip fd; now apply get_scaled_masks|].
  destruct l as [|kc l].
  - split; [exact WT|]. split; [reflexivity|]. split; [reflexivity|]. intros idx x R. split; [now apply real_value|]. rewrite nd_unmasked, <- (ML idx x R).
    split; [discriminate|]. destruct x; cbn; [intros (k & [] & _)|intros []|intros []].
  - set (l' := kc :: l) in *. clearbody l'. clear l kc.
    destruct (C27_mask (nd_of d a) (map snd l') WT) as (D & Sh & MV); [right; now split|].
    set (a' := mask_specials (nd_of d a) (map snd l')) in *. clearbody a'. change (shape (elems (nd_of d a))) with (shape a) in Sh, MV. change (dtype (nd_of d a)) with d in D.
    split; [|split; [exact D|split; [exact Sh|]]].
    + destruct WT as [_ WT]. split; [rewrite D; exact P|]. rewrite Sh, D. intros idx V. destruct (MV idx V) as [-> _]. exact (WT idx V).
    + intros idx x R. destruct (MV idx (proj1 R)) as [E M]. rewrite (real_value d _ _ _ R) in E, M. split; [exact E|]. rewrite M. now apply ML with (idx := idx).
Qed.
Theorem C80_reals va special product m target name type w o file mem size fd a s off :
  load_image va product m target name file mem size = Ok (Some a) -> says_samples m name type w o Ieee -> elements_are o Ieee w a ->
  let D := element_type Ieee w in
  says m $"SCALING_FACTOR" 1 s -> says m $"OFFSET" 0 off -> moderate D (scalar_q s) -> moderate D (scalar_q off) ->
  (special = [] -> double_constants m /\ nothing_customary a D) -> doubles_only special ->
  (forall idx q, real_at a idx (Fin q) -> ~ masks_real special m (Fin q) -> moderate D (2 * (q * scalar_q s))) ->
  exists r, scaled_image va special product m target name file mem size false fd = Ok r /\ dtype r = D /\ shape (elems r) = shape a /\
    forall idx x, real_at a idx x ->
      (masked (at_ (elems r) idx) = true <-> masks_real special m x) /\
      (~ masks_real special m x ->
       if Qeq_bool (scalar_q s) 1 && Qeq_bool (scalar_q off) 0 then val (at_ (elems r) idx) = x
       else float_scaled D (scalar_q s) (scalar_q off) x (val (at_ (elems r) idx))).
Proof.
  intros L S H D Hs Ho Ms Mo C IS Fit. pose proof (samples_width _ _ _ _ _ _ S) as W. cbn in W.
  destruct (real_image_masked special m w o a W H C IS) as (a' & G & WT & D' & Sh & MV). fold D in G, D'.
  assert (Fl : is_float D) by (unfold D; cbn; now destruct (w =? 4)%nat).
  rewrite (scaled_is _ _ _ _ _ _ _ _ _ _ _ _ _ _ _ _ L S). fold D. rewrite G.
  destruct (Qeq_bool (scalar_q s) 1 && Qeq_bool (scalar_q off) 0) eqn:U.
  - apply andb_true_iff in U. destruct U as [U1 U2]. apply Qeq_bool_iff in U1, U2. exists a'. split; [now apply (C28_unscaled m a' false fd s off)|]. split; [exact D'|]. split; [exact Sh|].
    intros idx x R. destruct (MV idx x R) as [E1 E2]. split; [exact E2|]. now intros _.
  - assert (NU : ~ unscaled s off). { intros [U1 U2]. apply Qeq_bool_iff in U1, U2. rewrite U1, U2 in U. discriminate U. }
    destruct (C28_floats m a' fd D s off WT Hs Ho NU Fl) as (r & E & Dr & Sr & Vr); [now left|exact Ms|exact Mo| |].
    { intros idx q V M Eq. rewrite Sh in V. destruct (value_real o w a idx H V) as [x R]. destruct (MV idx x R) as [E1 E2]. rewrite E1 in Eq. subst x.
      apply (Fit idx q R). intros K. apply E2 in K. congruence. }
    exists r. split; [exact E|]. split; [exact Dr|]. split; [congruence|]. intros idx x R. destruct (MV idx x R) as [E1 E2]. specialize (Vr idx). rewrite Sh in Vr.
    specialize (Vr (proj1 R)). cbv zeta in Vr. destruct Vr as [M1 M2]. split; [now rewrite M1|]. intros K.
    assert (M0 : masked (at_ (elems a') idx) = false) by (apply not_true_iff_false; now rewrite E2). specialize (M2 M0). now rewrite E1 in M2.
Qed.
Print Assumptions C80_reals.

(** ** A factor for each band *)
Theorem C80_bands_integers va special product m target name type w o sg file mem size a s off n nl ns :
  load_image va product m target name file mem size = Ok (Some a) -> says_samples m name type w o (Integer sg) -> elements_are o (Integer sg) w a ->
  shape a = [n; nl; ns] -> (1 < n)%nat ->
  says_planes m $"SCALING_FACTOR" (map SI s) -> says_planes m $"OFFSET" (map SI off) -> length s = n -> length off = n ->
  Forall (of_width sg w) s -> Forall (of_width sg w) off ->
  (special = [] -> integer_constants m /\ ~ (sg = false /\ w = 8%nat)) -> integers_only special ->
  let masked_ := masks special m (DInt sg (Z.of_nat w)) (fun y => exists idx, integer_at a idx y) in
  (forall b idx z x y, integer_at a (b :: idx) z -> ~ masked_ z -> nth_error s b = Some x -> nth_error off b = Some y -> of_width sg w (z * x + y)) ->
  exists r, scaled_image va special product m target name file mem size false None = Ok r /\ dtype r = DInt sg (Z.of_nat w) /\ shape (elems r) = shape a /\
    forall b idx z x y, integer_at a (b :: idx) z -> nth_error s b = Some x -> nth_error off b = Some y ->
      (masked (at_ (elems r) (b :: idx)) = true <-> masked_ z) /\
      (~ masked_ z -> exists q, val (at_ (elems r) (b :: idx)) = Fin q /\ (q == inject_Z (z * x + y))%Q).
Proof.
  intros L S H Sh0 N1 Hs Ho Ls Lo Ws Wo C IS masked_ Fit. pose proof (samples_width _ _ _ _ _ _ S) as W. cbn in W.
  destruct (integer_image_masked special m sg w o a W H C IS) as (a' & G & WT & D & Sh & MV). fold masked_ in MV.
  destruct (C28_planes_integers m a' sg (Z.of_nat w) s off n nl ns WT D) as (r & E & Dr & Sr & Vr); try assumption; [congruence| |].
  { intros b idx q x y V Ex Ey M Eq. rewrite Sh in V. destruct (value_integer o sg w (DInt sg (Z.of_nat w)) a _ H V) as (z & Iz & _). destruct (MV _ z Iz) as [E1 E2].
    rewrite E1 in Eq. injection Eq as <-. rewrite D. exists (z * x + y). split; [now rewrite inject_Z_plus, inject_Z_mult|].
    assert (F : of_width sg w (z * x + y)); [|destruct sg; exact F]. apply (Fit b idx z x y Iz); [|exact Ex|exact Ey]. intros K. apply E2 in K. congruence. }
  exists r. split; [rewrite (scaled_is _ _ _ _ _ _ _ _ _ _ _ _ _ _ _ _ L S); cbn [element_type]; rewrite G; exact E|]. split; [congruence|]. split; [congruence|].
  intros b idx z x y Iz Ex Ey. destruct (MV _ z Iz) as [E1 E2]. specialize (Vr (b :: idx)). rewrite Sh in Vr. specialize (Vr (proj1 Iz)). cbv zeta in Vr. destruct Vr as [M1 M2].
  split; [now rewrite M1|]. intros K. assert (M0 : masked (at_ (elems a') (b :: idx)) = false) by (apply not_true_iff_false; now rewrite E2).
  specialize (M2 M0 b x y eq_refl Ex Ey). rewrite E1 in M2. destruct M2 as (q & Eq & Q). exists q. split; [exact Eq|]. now rewrite Q, inject_Z_plus, inject_Z_mult.
Qed.
Print Assumptions C80_bands_integers.
Theorem C80_bands_reals va special product m target name type w o file mem size fd a s off n nl ns :
  load_image va product m target name file mem size = Ok (Some a) -> says_samples m name type w o Ieee -> elements_are o Ieee w a ->
  let D := element_type Ieee w in shape a = [n; nl; ns] -> (1 < n)%nat ->
  says_planes m $"SCALING_FACTOR" s -> says_planes m $"OFFSET" off -> length s = n -> length off = n ->
  Forall (fun c => moderate D (scalar_q c)) s -> Forall (fun c => moderate D (scalar_q c)) off ->
  (special = [] -> double_constants m /\ nothing_customary a D) -> doubles_only special ->
  (forall b idx q c, real_at a (b :: idx) (Fin q) -> ~ masks_real special m (Fin q) -> nth_error s b = Some c -> moderate D (2 * (q * scalar_q c))) ->
  exists r, scaled_image va special product m target name file mem size false fd = Ok r /\ dtype r = D /\ shape (elems r) = shape a /\
    forall b idx x c k, real_at a (b :: idx) x -> nth_error s b = Some c -> nth_error off b = Some k ->
      (masked (at_ (elems r) (b :: idx)) = true <-> masks_real special m x) /\
      (~ masks_real special m x -> float_scaled D (scalar_q c) (scalar_q k) x (val (at_ (elems r) (b :: idx)))).
Proof.
  intros L S H D Sh0 N1 Hs Ho Ls Lo Ms Mo C IS Fit. pose proof (samples_width _ _ _ _ _ _ S) as W. cbn in W.
  destruct (real_image_masked special m w o a W H C IS) as (a' & G & WT & D' & Sh & MV). fold D in G, D'.
  assert (Fl : is_float D) by (unfold D; cbn; now destruct (w =? 4)%nat).
  destruct (C28_planes m a' fd D s off n nl ns WT) as (r & E & Dr & Sr & Vr); try assumption; [congruence|now left| |].
  { intros b idx q c V Ec M Eq. rewrite Sh in V. destruct (value_real o w a _ H V) as [x R]. destruct (MV _ x R) as [E1 E2]. rewrite E1 in Eq. subst x.
    apply (Fit b idx q c R); [|exact Ec]. intros K. apply E2 in K. congruence. }
  exists r. split; [rewrite (scaled_is _ _ _ _ _ _ _ _ _ _ _ _ _ _ _ _ L S); fold D; rewrite G; exact E|]. split; [exact Dr|]. split; [congruence|].
  intros b idx x c k R Ec Ek. destruct (MV _ x R) as [E1 E2]. specialize (Vr (b :: idx)). rewrite Sh in Vr. specialize (Vr (proj1 R)). cbv zeta in Vr. destruct Vr as [M1 M2].
  split; [now rewrite M1|]. intros K. assert (M0 : masked (at_ (elems a') (b :: idx)) = false) by (apply not_true_iff_false; now rewrite E2).
  specialize (M2 M0 b c k eq_refl Ec Ek). now rewrite E1 in M2.
Qed.
Print Assumptions C80_bands_reals.

(** ** From the file *)
Lemma special_integer_ext m d P Q z : (forall y, P y <-> Q y) -> special_integer m d P z -> special_integer m d Q z.
Proof. intros E [name [K|(k & K & Eq & N)]]; exists name; [now left|right]. exists k. split; [exact K|]. split; [exact Eq|]. intros y Y. apply N. now apply E. Qed.
Lemma masks_ext special m d P Q z : (forall y, P y <-> Q y) -> masks special m d P z <-> masks special m d Q z.
Proof. intros E. unfold masks. split; (intros [[E0 K]|K]; [left; split; [exact E0|]|now right]); eapply special_integer_ext; [exact E|exact K|intros y; symmetry; apply E|exact K]. Qed.
Theorem C80_file va special product m target name type w o sg nl ns file mem size z fd s off :
  PdsImage.says_image m type w nl ns -> PdsImage.one_band m -> PdsImage.unpadded m -> Array.pds3_type type w o (Integer sg) ->
  PdsImage.of_pixels name -> ~ PdsImage.of_qube name ->
  starts_at product (Some m) size target z -> z + Z.of_nat (nl * ns * w) <= Z.of_nat (length file) ->
  says m $"SCALING_FACTOR" 1 (SI s) -> says m $"OFFSET" 0 (SI off) -> of_width sg w s -> of_width sg w off ->
  (special = [] -> integer_constants m /\ ~ (sg = false /\ w = 8%nat)) -> integers_only special ->
  let pixel l i v := (l < nl)%nat /\ (i < ns)%nat /\ integer_in o sg w v (item file (Z.to_nat z) w (l * ns + i)) in
  let masked_ := masks special m (DInt sg (Z.of_nat w)) (fun v => exists l i, pixel l i v) in
  (forall l i v, pixel l i v -> ~ masked_ v -> of_width sg w (v * s + off)) ->
  exists r, scaled_image va special product m target name file mem size false fd = Ok r /\ dtype r = DInt sg (Z.of_nat w) /\ shape (elems r) = [nl; ns] /\
    (forall l i, (l < nl)%nat -> (i < ns)%nat -> exists v, pixel l i v) /\
    forall l i v, pixel l i v ->
      (masked (at_ (elems r) [l; i]) = true <-> masked_ v) /\
      (~ masked_ v -> exists q, val (at_ (elems r) [l; i]) = Fin q /\ (q == inject_Z (v * s + off))%Q).
Proof.
  intros SI_ B U T N Q P Len Hs Ho Ws Wo C IS pixel masked_ Fit.
  destruct (PdsImage.C79_one_band va product m target name type w o (Integer sg) nl ns file mem size z SI_ B U T N Q P Len) as (a & L & Sh & V).
  assert (W0 : (0 < w)%nat) by (apply (Proofs.Array.pds3_pos _ _ _ _ T)).
  assert (EV : forall l i, (l < nl)%nat -> (i < ns)%nat -> valid (shape a) [l; i]) by (intros l i Hl Hi; rewrite Sh; repeat constructor; assumption).
  assert (VE : forall idx, valid (shape a) idx -> exists l i, idx = [l; i] /\ (l < nl)%nat /\ (i < ns)%nat).
  { intros idx I. rewrite Sh in I. inversion I as [|l ? idx' ? Hl I']; subst. inversion I' as [|i ? idx'' ? Hi I'']; subst. inversion I''; subst. eauto. }
  assert (PI : forall l i v, pixel l i v <-> integer_at a [l; i] v).
  { intros l i v. split.
    - intros (Hl & Hi & R & Wr). split; [now apply EV|]. destruct (V l i Hl Hi) as (p & E & v' & Ev & R' & Wr'). injection Ev as ->. rewrite E.
      now rewrite (written_unique _ _ _ _ _ _ W0 R R' Wr Wr').
    - intros [I E]. destruct (VE _ I) as (l' & i' & [= <- <-] & Hl & Hi). split; [exact Hl|]. split; [exact Hi|]. destruct (V l i Hl Hi) as (p & E' & v' & Ev & R).
      injection Ev as ->. rewrite E' in E. injection E as <-. exact R. }
  assert (OC : forall y, (exists l i, pixel l i y) <-> exists idx, integer_at a idx y).
  { intros y. split; [intros (l & i & Hp); exists [l; i]; now apply PI|]. intros [idx I]. destruct (VE _ (proj1 I)) as (l & i & -> & _). exists l, i. now apply PI. }
  assert (ME : forall v, masked_ v <-> masks special m (DInt sg (Z.of_nat w)) (fun y => exists idx, integer_at a idx y) v) by (intros v; apply masks_ext; exact OC).
  destruct (C80_integers va special product m target name type w o sg file mem size fd a s off L) as (r & E & D & Sr & Vr); try assumption.
  - left. destruct SI_ as (S1 & S2 & _). now repeat split.
  - intros idx I. destruct (VE _ I) as (l & i & -> & Hl & Hi). eexists. now apply V.
  - intros idx v I K. destruct (VE _ (proj1 I)) as (l & i & -> & _). apply (Fit l i v); [now apply PI|]. now rewrite ME.
  - exists r. split; [exact E|]. split; [exact D|]. split; [congruence|]. split.
    + intros l i Hl Hi. destruct (V l i Hl Hi) as (p & E' & v & Ev & R). exists v. split; [exact Hl|]. now split.
    + intros l i v Hp. apply PI in Hp. destruct (Vr _ _ Hp) as [M1 M2]. rewrite !ME. split; assumption.
Qed.
Print Assumptions C80_file.

(** ** Concrete images: [1; 2; -1; 256], of which -1 is a constant, times 2 and plus 1 *)
Definition ex_block : multidict := PdsImage.ex_image ++ [($"SCALING_FACTOR", PInt 2); ($"OFFSET", PInt 1); ($"CORE_NULL", PInt (-1))].
Example C80_meets :
  says_samples ex_block $"IMAGE" $"LSB INTEGER" 2 LSB (Integer true) /\ says ex_block $"SCALING_FACTOR" 1 (SI 2) /\ says ex_block $"OFFSET" 0 (SI 1) /\
  of_width true 2 2 /\ of_width true 2 1 /\ integer_constants ex_block /\
  exists r, scaled_image (fun c => c) [] (PInt 8) ex_block (PInt 2) $"IMAGE" PdsImage.ex_file false 16 false None = Ok r /\
    map (fun c => if masked c then None else Some (val c)) (ravel (elems r)) = [Some (Fin (inject_Z 3)); Some (Fin (inject_Z 5)); None; Some (Fin (inject_Z 513))].
Proof.
  split.
  { left. split; [intros H; apply PdsImage.mentions_iff in H; discriminate H|]. split; [reflexivity|]. split; [reflexivity|]. apply PdsImage.C79_meets. }
  split; [now apply says_int|]. split; [now apply says_int|]. split; [vm_compute; split; [discriminate|reflexivity]|]. split; [vm_compute; split; [discriminate|reflexivity]|]. split.
  { intros name v I E. right.
    assert (A : forallb (fun name => match md_get ex_block name with None | Some (PInt _) => true | _ => false end) PDS3_CONSTANT_NAMES = true) by (vm_compute; reflexivity).
    rewrite forallb_forall in A. specialize (A name I). rewrite E in A. destruct v; try discriminate A. eauto. }
  apply ok_with. vm_compute. reflexivity.
Qed.
(** the reals 1 and NaN, times a half *)
Definition ex_reals : multidict :=
  [($"LINES", PInt 1); ($"LINE_SAMPLES", PInt 2); ($"SAMPLE_TYPE", PStr $"IEEE_REAL"); ($"SAMPLE_BITS", PInt 32); ($"SCALING_FACTOR", PFloat (1 # 2))].
Example C80_reals_meets :
  says_samples ex_reals $"IMAGE" $"IEEE_REAL" 4 MSB Ieee /\
  exists r, scaled_image (fun c => c) [] PNone ex_reals (PInt 1) $"IMAGE" (PdsImage.bytes [63;128;0;0; 127;192;0;0]%nat) false 8 false None = Ok r /\
    map (fun c => if masked c then None else match val c with Fin q => Some (Qred q) | _ => Some 0%Q end) (ravel (elems r)) = [Some (1 # 2)%Q; None].
Proof.
  split.
  { left. split; [intros H; apply PdsImage.mentions_iff in H; discriminate H|]. split; [reflexivity|]. split; [reflexivity|]. apply Array.p_real; [cbn; auto|cbn; auto]. }
  apply ok_with. vm_compute. reflexivity.
Qed.
(** two bands, one times 2, the other times 3 and less 1 *)
Definition ex_bands : multidict :=
  [($"LINES", PInt 1); ($"LINE_SAMPLES", PInt 2); ($"SAMPLE_TYPE", PStr $"MSB_UNSIGNED_INTEGER"); ($"SAMPLE_BITS", PInt 16); ($"BANDS", PInt 2);
   ($"BAND_STORAGE_TYPE", PStr $"BAND_SEQUENTIAL"); ($"SCALING_FACTOR", PTuple [PInt 2; PInt 3]); ($"OFFSET", PTuple [PInt 0; PInt 1])].
Example C80_bands_meets :
  says_planes ex_bands $"SCALING_FACTOR" (map SI [2; 3]) /\ says_planes ex_bands $"OFFSET" (map SI [0; 1]) /\
  exists r, scaled_image (fun c => c) [($"NULL", CNum (SI 65535))] PNone ex_bands (PInt 1) $"IMAGE" (PdsImage.bytes [0;1; 0;2; 0;3; 255;255]%nat) false 8 false None = Ok r /\
    map (fun c => if masked c then None else Some (val c)) (ravel (elems r)) = [Some (Fin (inject_Z 2)); Some (Fin (inject_Z 4)); Some (Fin (inject_Z 10)); None].
Proof.
  split; [eexists; split; [reflexivity|repeat constructor]|]. split; [eexists; split; [reflexivity|repeat constructor]|]. apply ok_with. vm_compute. reflexivity.
Qed.

(** *** What the code does otherwise *)
(** integers are not promoted: what does not fit wraps around *)
Theorem C80_wrap_refuted va : exists r,
  scaled_image va [] PNone (ex_bands ++ [($"CORE_NULL", PStr $"N/A")]) (PInt 1) $"IMAGE" (PdsImage.bytes [156;64; 0;200; 1;44; 234;96]%nat) false 8 false None = Ok r /\
    map val (ravel (elems r)) = [Fin (inject_Z 14464); Fin (inject_Z 400); Fin (inject_Z 901); Fin (inject_Z 48929)].
Proof. apply ok_with. vm_compute. reflexivity. Qed.
Print Assumptions C80_wrap_refuted.
(** unsigned integers of 8 bytes cannot be scaled, whatever their values, unless constants are known for the product *)
Theorem C80_long_integers_refuted va product m target name type o file mem size fd a r :
  load_image va product m target name file mem size = Ok (Some a) -> says_samples m name type 8 o (Integer false) ->
  scaled_image va [] product m target name file mem size false fd <> Ok r.
Proof.
  intros L S E. rewrite (scaled_is _ _ _ _ _ _ _ _ _ _ _ _ _ _ _ _ L S) in E. unfold get_scaled in E.
  destruct (find_special_constants _ _) as [l|] eqn:F; [|discriminate]. apply C27_uint64_refuted in F; [exact F|reflexivity].
Qed.
Print Assumptions C80_long_integers_refuted.
