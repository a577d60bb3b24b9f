(** C66: DataFrames from the bytes of the files of PDS4 tables. *)
From Coq Require Import ZArith Lia QArith.
From Verif.Base Require Import Py PyFacts Val.
From Verif.Model Require Import Types Scaling Pds4Types Pds4Values.
From Verif.Spec Require Import Scaling Pvl Pds4Types Pds4Values.
From Verif.Proofs Require Import Scaling Pds4Types Pds4Fields.
From Verif.Properties Require Pds4Types Pds4Fields.
From Verif.Model Require Import Pds4Tables Pds4Frame.
From Verif.Spec Require Import Pds4Frame Pds4Tables.
From Verif.Proofs Require Import Pds4Manifest Pds4Tables Pds4Fixed Pds4Names Pds4Heads Pds4Frame.
From Verif.Properties Require Pds4Tables Pds4Fixed.
From Verif.Properties Require Import Pds4Frame.
Open Scope nat_scope.

(** ** The values of a field from its texts *)
Definition readable (k : table_kind) (t : meaning) (s : str) : Prop := left_out k t s \/ exists x, says t s x.
Definition cells_say (k : table_kind) (t : meaning) (data : list str) (v : fvals) : Prop :=
  field_length v = length data /\
  forall i m x, stored v i m x -> if m then left_out k t (nth i data []) /\ x = zero_of t else says t (nth i data []) x /\ ~ left_out k t (nth i data []).
Definition nulls_of (k : table_kind) : bool := match k with Delimited => true | _ => false end.
Lemma ascii_convert k name data : contains $"ascii" (lower name) = true \/ numpy_type name = None -> convert_field k name data = convert_ascii name (nulls_of k) data.
Proof. intros H. destruct k; try reflexivity. cbn [convert_field nulls_of]. now apply Pds4Fields.C65_binary_characters. Qed.
Lemma nulls_iff k s : nulls_of k = true /\ blanks s <-> k = Delimited /\ blanks s.
Proof. destruct k; cbn; intuition congruence. Qed.
(** texts of numbers are not blank *)
Lemma blanks_dec s : {blanks s} + {~ blanks s}.
Proof.
  unfold blanks. apply Forall_dec. intros c. unfold blank_char. apply in_dec. apply ascii_dec.
Qed.
Lemma nullable_of {A} k (t : meaning) (z0 : A) (text : str -> A -> Prop) (inj : A -> dfvalue) data : t <> MText ->
  (forall s x, says t s x -> exists a, x = inj a /\ text s a) -> Forall (readable k t) data ->
  exists l, Forall2 (nullable (nulls_of k) z0 text) data l.
Proof.
  intros Nt H F. induction F as [|s data R _ [l IH]]; [exists []; constructor|].
  assert (X : exists r, nullable (nulls_of k) z0 text s r).
  { destruct (nulls_of k) eqn:En, (blanks_dec s) as [B|B].
    - exists (z0, true). now left.
    - destruct R as [(_ & _ & B')|[x Hx]]; [contradiction|]. destruct (H s x Hx) as (a & _ & Ha). exists (a, false). right. split; [tauto|auto].
    - destruct R as [(K & _ & _)|[x Hx]]; [subst k; discriminate En|]. destruct (H s x Hx) as (a & _ & Ha). exists (a, false). right. split; [intros [? _]; discriminate|auto].
    - destruct R as [(K & _ & _)|[x Hx]]; [subst k; discriminate En|]. destruct (H s x Hx) as (a & _ & Ha). exists (a, false). right. split; [intros [? _]; discriminate|auto]. }
  destruct X as [r X]. exists (r :: l). now constructor.
Qed.
Lemma nullable_cell {A} k t (z0 : A) (text : str -> A -> Prop) (inj : A -> dfvalue) data l i a m : t <> MText -> zero_of t = inj z0 ->
  (forall s a, text s a -> says t s (inj a)) -> Forall2 (nullable (nulls_of k) z0 text) data l -> nth_error l i = Some (a, m) ->
  if m then left_out k t (nth i data []) /\ inj a = zero_of t else says t (nth i data []) (inj a) /\ ~ left_out k t (nth i data []).
Proof.
  intros Nt Ez H F. revert i. induction F as [|s r data l R _ IH]; intros i E; [destruct i; discriminate E|]. destruct i as [|i]; cbn [nth_error nth] in *.
  - injection E as ->. destruct R as [(N & B & R)|(N & T & R)].
    + injection R as -> ->. split; [|auto]. split; [|split; [exact Nt|exact B]]. destruct k; cbn in N; congruence.
    + cbn [fst snd] in *. subst m. split; [now apply H|]. intros (K & _ & B). apply N. apply nulls_iff. auto.
  - now apply IH.
Qed.
Lemma F2_length {A B} (R : A -> B -> Prop) l l' : Forall2 R l l' -> length l = length l'.
Proof. induction 1; cbn; congruence. Qed.
Lemma convert_says k name t data : meant k name t -> data <> [] -> Forall (readable k t) data ->
  exists v, convert_field k name data = Ok v /\ cells_say k t data v.
Proof.
  intros M Ne F. destruct M as [signed En|b Hb En|En|En|En|o f w Ek Tn].
  - destruct (nullable_of k (MInt signed) 0%Z (fun s z => int_text 10 s z /\ of_width signed 8 z) VI data) as [l Hl]; [discriminate| |exact F|].
    { intros s x (z & -> & H). eauto. }
    rewrite ascii_convert by (left; subst name; destruct signed; reflexivity). subst name. 
    exists (FInts (TNum (DInt signed 8)) l). split; [apply (proj2 (Pds4Fields.C65_integers signed (nulls_of k) data _)); eauto|].
    split; [symmetry; eapply F2_length; exact Hl|]. intros i m x (z & E & ->). eapply nullable_cell with (inj := VI); [discriminate| | |exact Hl|exact E]; [reflexivity|]. intros s a H. exists a. auto.
  - destruct (nullable_of k (MBased b) 0%Z (int_text b) VI data) as [l Hl]; [discriminate| |exact F|].
    { intros s x (z & -> & H). eauto. }
    rewrite ascii_convert by (left; subst name; destruct Hb as [<-|[<-|[<-|[]]]]; reflexivity). subst name.
    destruct (Pds4Fields.C65_based b (nulls_of k) data l Hb Ne Hl) as (t & E & _). exists (FInts t l). split; [exact E|].
    split; [symmetry; eapply F2_length; exact Hl|]. intros i m x (z & E' & ->). eapply nullable_cell with (inj := VI); [discriminate| | |exact Hl|exact E']; [reflexivity|]. intros s a H. exists a. auto.
  - destruct (nullable_of k MReal (Fin 0) real_text VR data) as [l Hl]; [discriminate| |exact F|].
    { intros s x (z & -> & H). eauto. }
    rewrite ascii_convert by (left; subst name; reflexivity). subst name.
    destruct (Pds4Fields.C65_reals (nulls_of k) data) as (R1 & R2 & _). destruct R2 as [r Hr]; [eauto|]. destruct (R1 r Hr) as (l' & -> & Hl'). exists (FReals l'). split; [exact Hr|].
    split; [symmetry; eapply F2_length; exact Hl'|]. intros i m x (z & E' & ->). eapply nullable_cell with (inj := VR); [discriminate| | |exact Hl'|exact E']; [reflexivity|]. intros s a H. exists a. auto.
  - destruct (nullable_of k MBool false bool_text VB data) as [l Hl]; [discriminate| |exact F|].
    { intros s x (z & -> & H). eauto. }
    rewrite ascii_convert by (left; subst name; reflexivity). subst name. exists (FBools l). split; [now apply Pds4Fields.C65_booleans|].
    split; [symmetry; eapply F2_length; exact Hl|]. intros i m x (z & E' & ->). eapply nullable_cell with (inj := VB); [discriminate| | |exact Hl|exact E']; [reflexivity|]. intros s a H. exists a. auto.
  - destruct (Pds4Fields.C65_text name (nulls_of k) data En) as (l & E & Hl). exists (FText l). split.
    { rewrite ascii_convert; [exact E|right]. unfold convert_ascii in E. destruct (numpy_type name) as [[[? []] ?]|]; [| | | | |reflexivity]; try discriminate E; exfalso; revert E;
      repeat match goal with |- context [rbind ?x _] => destruct x; cbn [rbind] end; discriminate. }
    split; [symmetry; eapply F2_length; exact Hl|]. intros i m x (u & E' & -> & ->). split; [|intros (_ & X & _); now apply X].
    clear -Hl E'. revert i E'. induction Hl as [|s t data l [A [n B]] _ IH]; intros i E'; [destruct i; discriminate E'|]. destruct i as [|i]; cbn [nth_error nth] in *; [injection E' as ->; exists u, n; auto|auto].
  - subst k. assert (L : Forall (fun s => length s = w) data). { eapply Forall_impl; [|exact F]. intros s [(X & _)|(x & p & _ & L & _)]; [discriminate X|exact L]. }
    destruct (Pds4Fields.C65_binary name o f w data Tn L) as (t & l & E & Hl). exists (FRaw t l). split; [exact E|].
    split; [symmetry; eapply F2_length; exact Hl|]. intros i m x (u & E' & -> & ->). split; [|intros (X & _); discriminate X].
    clear -Hl E' L. revert i E' L. induction Hl as [|s t data l A _ IH]; intros i E' L; [destruct i; discriminate E'|]. inversion L; subst. destruct i as [|i]; cbn [nth_error nth] in *; [injection E' as ->; exists u; auto|auto].
Qed.

(** ** The fields of a table *)
(** the texts of the fields, [n] records of them, are legal *)
Definition legal (k : table_kind) (n : nat) (hs : list (list str * list nat)) (ts : list meaning) (texts : list (list str)) : Prop :=
  length ts = length hs /\ length texts = length hs /\
  forall j h t data, nth_error hs j = Some h -> nth_error ts j = Some t -> nth_error texts j = Some data ->
    data <> [] /\ length data = n * columns_in (snd h) /\ Forall (readable k t) data.
Lemma make_go k n m : forall hs idx metas ts texts, map (group_shape m) idx = map snd hs -> Forall2 (fun me t => meant k (m_type me) t) metas ts -> legal k n hs ts texts ->
  exists fs, rmap (fun p : (str * nat) * (fmeta * list str) =>
          do v <- convert_field k (m_type (fst (snd p))) (snd (snd p));
          Ok (mkT (fst (fst p)) (group_shape m (snd (fst p))) (m_special (fst (snd p))) v))
       (combine (combine (map head_name hs) idx) (combine metas texts)) = Ok fs /\
    map described fs = map (fun h => (head_name h, snd h)) hs /\ map t_special fs = map m_special metas /\ Forall (of_records n) fs /\
    forall j f, nth_error fs j = Some f -> exists t data, nth_error ts j = Some t /\ nth_error texts j = Some data /\ cells_say k t data (t_vals f).
Proof.
  induction hs as [|h hs IH]; intros idx metas ts texts Ei Fm (L1 & L2 & Lg).
  - destruct ts; [|discriminate L1]. inversion Fm; subst. destruct idx; [|discriminate Ei]. exists []. repeat split; try reflexivity; [constructor|]. intros j f E. destruct j; discriminate E.
  - destruct ts as [|t ts]; [discriminate L1|]. destruct texts as [|data texts]; [discriminate L2|]. inversion Fm as [|me ? metas' ? Hme Fm']; subst. destruct idx as [|i idx]; [discriminate Ei|]. injection Ei as Ei1 Ei2. injection L1 as L1. injection L2 as L2.
    destruct (Lg 0 h t data eq_refl eq_refl eq_refl) as (Nd & Ld & Fd). destruct (convert_says k (m_type me) t data Hme Nd Fd) as (v & Ev & Cv).
    destruct (IH idx metas' ts texts Ei2 Fm') as (fs & E & D & Sp & R & C).
    { split; [exact L1|]. split; [exact L2|]. intros j h' t' data' A B Cc. exact (Lg (S j) h' t' data' A B Cc). }
    exists (mkT (head_name h) (group_shape m i) (m_special me) v :: fs). cbn [map combine rmap fst snd]. rewrite Ev. cbn [rbind]. rewrite E. cbn [rbind]. split; [reflexivity|].
    split; [unfold described at 1; cbn [t_name t_shape]; now rewrite D, Ei1|]. split; [cbn [t_special]; now rewrite Sp|]. split.
    + constructor; [|exact R]. unfold of_records, width. cbn [t_vals t_shape]. rewrite Ei1, <- Ld. apply Cv.
    + intros [|j] f; cbn [nth_error]; [intros [= <-]; exists t, data; auto|apply C].
Qed.
Lemma make_says k n F metas ts texts : Forall2 (fun me t => meant k (m_type me) t) metas ts -> legal k n (heads F) ts texts ->
  exists fs, make_fields k (manifest 0 (label_fields F)) (label_names F) metas texts = Ok fs /\
    map described fs = map (fun h => (head_name h, snd h)) (heads F) /\ map t_special fs = map m_special metas /\ Forall (of_records n) fs /\
    forall j f, nth_error fs j = Some f -> exists t data, nth_error ts j = Some t /\ nth_error texts j = Some data /\ cells_say k t data (t_vals f).
Proof. intros Fm Lg. unfold make_fields. rewrite names_heads. apply make_go; [apply shapes_heads|assumption|assumption]. Qed.

Lemma described_facts fs F : map described fs = map (fun h => (head_name h, snd h)) (heads F) -> showable F ->
  fs <> [] /\ NoDup (map t_name fs) /\ Forall (fun f => quiet_name (t_name f)) fs /\ Forall two_levels fs.
Proof.
  intros D (Ne & Nd & Fa). split; [intros ->; destruct (heads F); [now apply Ne|discriminate D]|].
  assert (E1 : map t_name fs = map head_name (heads F)). { pose proof (f_equal (map fst) D) as E. rewrite !map_map in E. exact E. }
  split; [now rewrite E1|].
  assert (X : Forall (fun p : str * list nat => quiet_name (fst p) /\ length (snd p) <= 2) (map described fs)) by (rewrite D; apply Forall_map; exact Fa).
  rewrite Forall_map in X. split; (eapply Forall_impl; [|exact X]); intros f [A B]; [exact A|exact B].
Qed.
Lemma lone_iff fs F k : map described fs = map (fun h => (head_name h, snd h)) (heads F) -> lone fs k <-> lone_in (heads F) k.
Proof.
  intros D. assert (P : forall j, (forall f, nth_error fs j = Some f -> exists h, nth_error (heads F) j = Some h /\ (plain f <-> snd h = [])) /\ (forall h, nth_error (heads F) j = Some h -> exists f, nth_error fs j = Some f /\ (plain f <-> snd h = []))).
  { intros j. pose proof (f_equal (fun l => nth_error l j) D) as X. cbv beta in X. rewrite !nth_error_map in X. unfold plain. split; intros y E; rewrite E in X; cbn in X.
    - destruct (nth_error (heads F) j) as [h|]; [|discriminate X]. cbn in X. injection X as _ X. exists h. split; [reflexivity|]. now rewrite X.
    - destruct (nth_error fs j) as [f|]; [|discriminate X]. cbn in X. injection X as _ X. exists f. split; [reflexivity|]. now rewrite X. }
  unfold lone, lone_in. split; (intros [(f & E & N)|[A B]]; [left; apply P in E as (h & E & Q); exists h; split; [exact E|tauto]|right; split]).
  - intros g E. apply P in E as (f & E & Q). rewrite <- Q. now apply A.
  - intros k' g Ek E. apply P in E as (f & E & Q). rewrite <- Q. eapply B; eauto.
  - intros g E. apply P in E as (f & E & Q). rewrite Q. now apply A.
  - intros k' g Ek E. apply P in E as (f & E & Q). rewrite Q. eapply B; eauto.
Qed.
Lemma label_complete k n F metas ts texts : showable F -> Forall2 (fun me t => meant k (m_type me) t) metas ts -> legal k n (heads F) ts texts ->
  (forall j t data s, nth_error ts j = Some t -> nth_error texts j = Some data -> In s data -> ~ left_out k t s) ->
  exists cols, (do fs <- make_fields k (manifest 0 (label_fields F)) (label_names F) metas texts; table_df fs) = Ok cols /\
    label_frame n F (fun j i x => exists t, nth_error ts j = Some t /\ says t (nth i (nth j texts []) []) x) cols.
Proof.
  intros Sh Fm Lg No. destruct (make_says k n F metas ts texts Fm Lg) as (fs & E & D & Sp & R & C). rewrite E. cbn [rbind].
  destruct (described_facts fs F D Sh) as (A1 & A2 & A3 & A4).
  destruct (C66_frame n fs A1 A2 A3 A4 R) as (cols & Ec & Fr).
  { apply Forall_forall. intros f Hf. apply In_nth_error in Hf as [j Hj]. destruct (C j f Hj) as (t & data & Et & Ed & L & K). intros i [x Hx]. destruct (K i true x Hx) as [Lo _].
    apply (No j t data _ Et Ed) in Lo; [exact Lo|]. apply nth_In. rewrite <- L. rewrite <- raw_length. apply nth_error_Some. rewrite (proj2 (raw_stored _ _ _) (ex_intro _ true Hx)). discriminate. }
  exists cols. split; [exact Ec|]. unfold label_frame. rewrite <- D. eapply frame_imp; [|exact Fr]. intros j i x (f & Hf & Hk). destruct (C j f Hf) as (t & data & Et & Ed & L & K).
  exists t. split; [exact Et|]. rewrite (nth_error_nth _ _ [] Ed). exact (proj1 (K i false x Hk)).
Qed.
Lemma label_missing k n F metas ts texts : showable F -> Forall2 (fun me t => meant k (m_type me) t) metas ts -> legal k n (heads F) ts texts ->
  Forall (fun me => m_special me = None) metas ->
  exists cols, (do fs <- make_fields k (manifest 0 (label_fields F)) (label_names F) metas texts; table_df fs) = Ok cols /\
    label_frame n F (fun j i y => exists t, nth_error ts j = Some t /\ shown_text k t (nth i (nth j texts []) []) (lone_in (heads F) j) y) cols.
Proof.
  intros Sh Fm Lg Sp0. destruct (make_says k n F metas ts texts Fm Lg) as (fs & E & D & Sp & R & C). rewrite E. cbn [rbind].
  destruct (described_facts fs F D Sh) as (A1 & A2 & A3 & A4).
  destruct (C66_missing n fs A1 A2 A3 A4 R) as (cols & Ec & Fr).
  { assert (X : Forall (fun o => o = None) (map t_special fs)) by (rewrite Sp; apply Forall_map; exact Sp0). rewrite Forall_map in X. exact X. }
  exists cols. split; [exact Ec|]. unfold label_frame. rewrite <- D. eapply frame_imp; [|exact Fr]. intros j i y (f & Hf & Hk & Hn). destruct (C j f Hf) as (t & data & Et & Ed & L & K).
  exists t. split; [exact Et|]. rewrite (nth_error_nth _ _ [] Ed). unfold shown_text. rewrite (lone_iff fs F j D) in Hk, Hn.
  assert (Dl : lone_in (heads F) j \/ ~ lone_in (heads F) j).
  { unfold lone_in. assert (Q : forall k, (forall g : list str * list nat, nth_error (heads F) k = Some g -> snd g <> []) \/ ~ (forall g, nth_error (heads F) k = Some g -> snd g <> [])).
    { intros q. destruct (nth_error (heads F) q) as [[g [|r sh]]|]; [right; intros X; now apply (X _ eq_refl)|left; intros ? [= <-]; discriminate|left; discriminate]. }
    assert (Q1 : (exists h, nth_error (heads F) j = Some h /\ snd h <> []) \/ ~ exists h, nth_error (heads F) j = Some h /\ snd h <> []).
    { destruct (nth_error (heads F) j) as [[g [|r sh]]|]; [right|left|right]; [intros (h & [= <-] & X); now apply X|eexists; split; [reflexivity|discriminate]|intros (h & X & _); discriminate X]. }
    destruct (Q (S j)) as [B|B], j as [|j]; try tauto.
    - left. right. split; [exact B|]. intros k' g X; discriminate X.
    - destruct (Q j) as [B'|B']; [left; right; split; [exact B|]; intros k' g [= <-]; apply B'|]. destruct Q1 as [Q1|Q1]; [now left; left|]. right. intros [X|[_ X]]; [contradiction|]. apply B'. intros g. now apply X. }
  destruct Dl as [Kp|Kp].
  - destruct (Hk Kp) as [[[x Hx] ->]|(x & Hx & Hc & Hf')].
    + left. destruct (K i true x Hx) as [Lo _]. split; [exact Lo|]. split; [auto|contradiction].
    + right. exists x. split; [exact (proj1 (K i false x Hx))|]. 
      destruct (any_masked (t_vals f)) eqn:M.
      * assert (Nc : ~ complete (t_vals f)) by (intros X; apply complete_masked in X; congruence). specialize (Hf' Nc). unfold as_float in Hf'.
        destruct (t_vals f) as [[d|] l|l|l|ty l|l], x as [z|z|z|z|z]; try (left; exact Hf'). destruct Hf' as (d' & -> & Hd). right. split; [exact Kp|]. eauto.
      * left. apply Hc. now apply complete_masked.
  - destruct (Hn Kp) as ([|] & Hx).
    + left. destruct (K i true y Hx) as [Lo Hz]. split; [exact Lo|]. split; [contradiction|auto].
    + right. exists y. split; [exact (proj1 (K i false y Hx))|now left].
Qed.

(** ** Files *)
Lemma heads_count F : length (heads F) = fields_of (label_fields F).
Proof. rewrite <- (map_length snd), <- shapes_heads, map_length. change (manifest 0 (label_fields F)) with (flatten 0 (label_fields F)). rewrite field_indices_ok. apply fidx_length. Qed.
Lemma head_shape F j h : nth_error (heads F) j = Some h -> j < fields_of (label_fields F) /\ snd h = group_shape (flatten 0 (label_fields F)) (nth j (fidx 0 (label_fields F)) 0).
Proof.
  intros E. assert (L : j < length (heads F)) by (apply nth_error_Some; congruence). split; [now rewrite <- heads_count|].
  pose proof (f_equal (fun l => nth_error l j) (shapes_heads F)) as X. cbv beta in X. change (manifest 0 (label_fields F)) with (flatten 0 (label_fields F)) in X. rewrite field_indices_ok, !nth_error_map, E in X. cbn [option_map] in X.
  rewrite (nth_error_nth' _ 0) in X by (rewrite fidx_length, <- heads_count; exact L). cbn [option_map] in X. now injection X.
Qed.
Lemma columns_prod l : columns_in l = prod_n l.
Proof. symmetry. apply prod_n_width. Qed.
Lemma even_repeated F : even_groups F -> all_repeated F.
Proof.
  induction F as [|l n F IH|r l n cs F IHc IH] using forest_ind; intros H; [constructor| |]; inversion H as [|? ? H1 H2]; subst; (constructor; [|now apply IH]); [exact I|].
  cbn [even_item] in H1. destruct H1 as (R & _ & C). cbn [repeated]. split; [exact R|].
  assert (A : even_groups cs) by (clear -C; induction cs as [|c cs IH]; constructor; [apply C|apply IH; apply C]).
  specialize (IHc A). clear -IHc. induction IHc; [exact I|]. split; assumption.
Qed.
Lemma fixed_length F rl n offset file j h : nth_error (heads F) j = Some h ->
  length (field_values (label_fields F) rl n offset file j) = n * columns_in (snd h).
Proof.
  intros E. destruct (head_shape F j h E) as [L Sh]. unfold field_values. rewrite (flat_map_length _ _ (columns_in (snd h))); [now rewrite seq_length|]. intros r _. rewrite map_length.
  pose proof (places_path (flatten 0 (label_fields F)) (label_fields F) 0 0 0 0%Z j (at_root _) L) as P. cbv zeta in P. cbn [Nat.add] in P. apply (f_equal (@length _)) in P. unfold of_field in P. rewrite !map_length, positions_length in P.
  unfold places. rewrite P, columns_prod, Sh. f_equal. symmetry. apply shape_ok. now apply fidx_in.
Qed.
Lemma columns_pos F j h : all_repeated (label_fields F) -> nth_error (heads F) j = Some h -> 1 <= columns_in (snd h).
Proof. intros R E. destruct (head_shape F j h E) as [L Sh]. rewrite columns_prod, Sh. apply prod_shape; [exact R|now apply fidx_in]. Qed.
Lemma nth_map_seq {A} (g : nat -> A) n j d : j < n -> nth j (map g (seq 0 n)) d = g j.
Proof. intros L. rewrite (nth_indep _ _ (g 0)) by (now rewrite map_length, seq_length). rewrite map_nth. f_equal. now apply seq_nth. Qed.
(** The DataFrame of a fixed-width table shows what the bytes of its fields say. *)
Theorem C66_fixed k F metas ts record_length n offset file : let f := label_fields F in let texts := field_values f record_length n offset file in
  k <> Delimited -> showable F -> even_groups f -> fits_record (Z.of_nat record_length) f -> 1 <= n ->
  Forall2 (fun me t => meant k (m_type me) t) metas ts -> length ts = length (heads F) ->
  (forall j t s, nth_error ts j = Some t -> In s (texts j) -> exists x, says t s x) ->
  exists cols, fixed_df k f (label_names F) metas (Z.of_nat record_length) n offset file = Ok cols /\
    label_frame n F (fun j i x => exists t, nth_error ts j = Some t /\ says t (nth i (texts j) []) x) cols.
Proof.
  intros f texts Nk Sh Ev Fi Hn Fm Lt Ok_. unfold fixed_df. rewrite Pds4Fixed.C45_values by assumption. fold texts. cbn [rbind].
  assert (Hj : forall j h, nth_error (heads F) j = Some h -> nth_error (map texts (seq 0 (fields_of f))) j = Some (texts j)).
  { intros j h E. destruct (head_shape F j h E) as [L _]. rewrite nth_error_map, nth_error_seq by exact L. reflexivity. }
  assert (Hs : forall j t, nth_error ts j = Some t -> exists h, nth_error (heads F) j = Some h).
  { intros j t E. destruct (nth_error (heads F) j) as [h|] eqn:X; [eauto|]. apply nth_error_None in X. rewrite <- Lt in X. apply nth_error_None in X. congruence. }
  destruct (label_complete k n F metas ts (map texts (seq 0 (fields_of f))) Sh Fm) as (cols & E & Fr).
  - split; [exact Lt|]. split; [rewrite map_length, seq_length; symmetry; apply heads_count|]. intros j h t data E1 E2 E3. rewrite (Hj j h E1) in E3. injection E3 as <-.
    pose proof (fixed_length F record_length n offset file j h E1) as Ll. fold f texts in Ll. pose proof (columns_pos F j h (even_repeated _ Ev) E1) as P. split; [|split; [exact Ll|]].
    + intros X. rewrite X in Ll. cbn in Ll. nia.
    + apply Forall_forall. intros s Hs'. right. eapply Ok_; eauto.
  - intros j t data s _ _ _ (X & _). contradiction.
  - exists cols. split; [exact E|]. unfold label_frame in *. eapply frame_imp; [|exact Fr]. intros j i x (t & Et & H). exists t. split; [exact Et|].
    destruct (Hs j t Et) as [h Hh]. destruct (head_shape F j h Hh) as [L _]. rewrite nth_map_seq in H by exact L. exact H.
Qed.
Print Assumptions C66_fixed.

Section Delimited.
  Context (F : list named) (metas : list fmeta) (ts : list meaning) (d : ascii) (rd : str) (recs : list (list coltext)) (before after : str) (junk : nat -> nat -> Z) (object_length maximum_record_length : option Z).
  Let f := label_fields F.
  Let good_file := delimited_file f d rd recs object_length maximum_record_length.
  Lemma delimited_read : good_file ->
    read_delimited_file 0 f d rd (length recs) object_length maximum_record_length junk (length before) (before ++ table_text d rd recs [] ++ after)
    = Ok (map (delimited_texts f recs) (seq 0 (fields_of f))).
  Proof.
    intros (D & E & Ne & Ho & Hm & R & Sf & G). assert (Nr : rd <> []) by (destruct E as [->| ->]; discriminate).
    destruct (Pds4Fixed.C44_file 0 f d rd recs before after junk object_length maximum_record_length Ho Hm Ne Nr) as [rest ->].
    apply Pds4Tables.C63_groups; try assumption; (eapply Forall_impl; [|exact G]); intros c [A B]; assumption.
  Qed.
  Lemma delimited_length j h : good_file -> nth_error (heads F) j = Some h -> length (delimited_texts f recs j) = length recs * columns_in (snd h).
  Proof.
    intros (_ & _ & _ & _ & _ & R & _ & G) E. destruct (head_shape F j h E) as [L Sh]. unfold delimited_texts. apply flat_map_length. intros cols Hc.
    rewrite Forall_forall in G. destruct (G cols Hc) as [_ Lc]. rewrite (values_of_occ j (owners f) (map value cols) []) by (now rewrite map_length). rewrite map_length, columns_prod, Sh, <- (occ_owners f j L).
    symmetry. apply prod_shape; [exact R|now apply fidx_in].
  Qed.
  Lemma delimited_legal : good_file -> length ts = length (heads F) -> (forall j t s, nth_error ts j = Some t -> In s (delimited_texts f recs j) -> readable Delimited t s) ->
    legal Delimited (length recs) (heads F) ts (map (delimited_texts f recs) (seq 0 (fields_of f))).
  Proof.
    intros Df Lt H. split; [exact Lt|]. split; [rewrite map_length, seq_length; symmetry; apply heads_count|]. intros j h t data E1 E2 E3.
    destruct (head_shape F j h E1) as [L _]. rewrite nth_error_map, nth_error_seq in E3 by exact L. injection E3 as <-. cbn [Nat.add].
    pose proof (delimited_length j h Df E1) as Ll. destruct Df as (_ & _ & Ne & _ & _ & R & _). pose proof (columns_pos F j h R E1) as P. split; [|split; [exact Ll|]].
    - intros X. rewrite X in Ll. destruct recs; [now apply Ne|]. cbn [length] in Ll. nia.
    - apply Forall_forall. intros s Hs. eapply H; eauto.
  Qed.
  Lemma texts_at j t : length ts = length (heads F) -> nth_error ts j = Some t -> nth j (map (delimited_texts f recs) (seq 0 (fields_of f))) [] = delimited_texts f recs j.
  Proof.
    intros Lt E. apply nth_map_seq. unfold f. rewrite <- heads_count, <- Lt. apply nth_error_Some. congruence.
  Qed.
  (** The DataFrame of a delimited table shows what the texts of its fields say. *)
  Theorem C66_delimited : delimited_file f d rd recs object_length maximum_record_length -> showable F -> Forall2 (fun me t => meant Delimited (m_type me) t) metas ts -> length ts = length (heads F) ->
    (forall j t s, nth_error ts j = Some t -> In s (delimited_texts f recs j) -> ~ left_out Delimited t s /\ exists x, says t s x) ->
    exists cols, delimited_df f (label_names F) metas d rd (length recs) object_length maximum_record_length junk (length before) (before ++ table_text d rd recs [] ++ after) = Ok cols /\
      label_frame (length recs) F (fun j i x => exists t, nth_error ts j = Some t /\ says t (nth i (delimited_texts f recs j) []) x) cols.
  Proof.
    intros Df Sh Fm Lt H. unfold delimited_df. rewrite (delimited_read Df). cbn [rbind].
    destruct (label_complete Delimited (length recs) F metas ts (map (delimited_texts f recs) (seq 0 (fields_of f))) Sh Fm) as (cols & E & Fr).
    - apply delimited_legal; try assumption. intros j t s E I. right. eapply H; eauto.
    - intros j t data s E1 E2 Hs. pose proof (texts_at j t Lt E1) as X. rewrite (nth_error_nth _ _ [] E2) in X. subst data. eapply H; eauto.
    - exists cols. split; [exact E|]. unfold label_frame in *. eapply frame_imp; [|exact Fr]. intros j i x (t & Et & Hx). exists t. split; [exact Et|]. now rewrite (texts_at j t Lt Et) in Hx.
  Qed.
  (** Numbers may be left out, when the label has no special constants. *)
  Theorem C66_delimited_missing : delimited_file f d rd recs object_length maximum_record_length -> showable F -> Forall2 (fun me t => meant Delimited (m_type me) t) metas ts -> length ts = length (heads F) ->
    Forall (fun me => m_special me = None) metas ->
    (forall j t s, nth_error ts j = Some t -> In s (delimited_texts f recs j) -> left_out Delimited t s \/ exists x, says t s x) ->
    exists cols, delimited_df f (label_names F) metas d rd (length recs) object_length maximum_record_length junk (length before) (before ++ table_text d rd recs [] ++ after) = Ok cols /\
      label_frame (length recs) F (fun j i y => exists t, nth_error ts j = Some t /\ shown_text Delimited t (nth i (delimited_texts f recs j) []) (lone_in (heads F) j) y) cols.
  Proof.
    intros Df Sh Fm Lt Sp H. unfold delimited_df. rewrite (delimited_read Df). cbn [rbind].
    destruct (label_missing Delimited (length recs) F metas ts (map (delimited_texts f recs) (seq 0 (fields_of f))) Sh Fm) as (cols & E & Fr); [|exact Sp|].
    - apply delimited_legal; assumption.
    - exists cols. split; [exact E|]. unfold label_frame in *. eapply frame_imp; [|exact Fr]. intros j i x (t & Et & Hx). exists t. split; [exact Et|]. now rewrite (texts_at j t Lt Et) in Hx.
  Qed.
End Delimited.
Print Assumptions C66_delimited.
Print Assumptions C66_delimited_missing.
(** a table of a time and, in a group, three readings in each record *)
Definition readings : list named := [NF $"time" 1 4; NG (Some $"sensor") 3 5 6 [NF $"level" 1 2]]%Z.
Lemma readings_showable : showable readings.
Proof.
  assert (E : heads readings = [([$"time"], []); ([$"sensor"; $"level"], [3])]) by reflexivity.
  unfold showable. rewrite E. split; [discriminate|]. split; [repeat constructor; cbn; intuition discriminate|].
  apply Forall_cons; [split; [now apply quiet_easy|cbn; lia]|apply Forall_cons; [split; [now apply quiet_easy|cbn; lia]|constructor]].
Qed.
Example C66_fixed_meets : let metas := [mkM $"ASCII_Integer" None; mkM $"UnsignedMSB2" None] in
  let file := $"HEAD" ++ $"  12" ++ ["000"%char; "001"%char; "000"%char; "002"%char; "001"%char; "000"%char] ++ $" -7 " ++ ["000"%char; "000"%char; "255"%char; "255"%char; "000"%char; "009"%char] in
  even_groups (label_fields readings) /\ fits_record 10 (label_fields readings) /\
  Forall2 (fun me t => meant Binary (m_type me) t) metas [MInt true; MBytes MSB (Integer false) 2] /\
  field_values (label_fields readings) 10 2 4 file 0 = [$"  12"; $" -7 "] /\ says (MInt true) $" -7 " (VI (-7)) /\
  fixed_df Binary (label_fields readings) (label_names readings) metas 10 2 4 file =
    Ok [($"time", [VI 12; VI (-7)]); ($"sensor, level_0", [VP (PElt (EI 1)); VP (PElt (EI 0))]);
        ($"sensor, level_1", [VP (PElt (EI 2)); VP (PElt (EI 65535))]); ($"sensor, level_2", [VP (PElt (EI 256)); VP (PElt (EI 9))])].
Proof.
  cbv zeta. split; [repeat constructor; now exists 2%Z|]. split; [intros p Hp; cbn in Hp; repeat (destruct Hp as [<-|Hp]; [cbn; lia|]); destruct Hp|].
  split; [constructor; [now constructor|constructor; [|constructor]; apply m_bytes; [reflexivity|]; apply (t_int false MSB 2); cbn; auto]|].
  split; [reflexivity|]. split; [|vm_compute; reflexivity]. exists (-7)%Z. split; [reflexivity|]. split; [|unfold of_width; cbn; lia].
  exists $"-7". split; [exists $" ", $" "; repeat split; constructor; (constructor; fail) || (cbn; auto)|]. apply (SN_minus 10 $"7" 7). now apply G_digit.
Qed.
Example C66_delimited_meets : let metas := [mkM $"ASCII_Integer" None; mkM $"ASCII_Real" None] in
  let recs := [[Plain $"12"; Plain $".5"; Quoted $"2"; Plain $"-1"]; [Plain $"13"; Plain []; Plain $"1e2"; Plain $"3"]] in
  delimited_file (label_fields readings) ","%char [NL] recs None None /\
  Forall2 (fun me t => meant Delimited (m_type me) t) metas [MInt true; MReal] /\
  delimited_texts (label_fields readings) recs 1 = [$".5"; $"2"; $"-1"; []; $"1e2"; $"3"] /\ left_out Delimited MReal [] /\
  lone_in (heads readings) 1 /\
  exists a b c d e, delimited_df (label_fields readings) (label_names readings) metas ","%char [NL] 2 None None (fun _ _ => 0%Z) 4 ($"HEAD" ++ table_text ","%char [NL] recs [] ++ $"TAIL") =
    Ok [($"time", [VI 12; VI 13]); ($"sensor, level_0", [VR (Fin a); VR NaN]); ($"sensor, level_1", [VR (Fin b); VR (Fin c)]); ($"sensor, level_2", [VR (Fin d); VR (Fin e)])] /\
    (a == 1 # 2 /\ b == 2 /\ c == 100 /\ d == -1 /\ e == 3)%Q.
Proof.
  cbv zeta. split.
  { split; [left; reflexivity|]. split; [|split; [discriminate|split; [discriminate|split; [discriminate|]]]]. 
    - now left.
    - split; [repeat constructor|]. split.
      + intros k n _ H _. assert (Hn : n < length (owners (label_fields readings))) by (apply (proj1 (nth_error_Some _ n)); congruence). change (length (owners (label_fields readings))) with 4 in Hn.
        unfold safe_last, signed_last. cbv zeta. split; [|intros _]; left; lia.
      + assert (H : forall s, contains [NL] s = false -> ~ occurs_in [NL] s).
        { intros s H (a & b & ->). rewrite <- not_true_iff_false in H. apply H. apply contains_iff. now exists a, b. }
        repeat constructor; try discriminate; try (intros (x & Hx); discriminate); try (apply H; reflexivity);
          cbn; intros X; repeat (destruct X as [X|X]; [discriminate|]); destruct X. }
  split; [constructor; [now constructor|constructor; [now apply m_real|constructor]]|].
  split; [reflexivity|]. split; [split; [reflexivity|split; [discriminate|constructor]]|]. split; [left; eexists; split; [reflexivity|discriminate]|].
  do 5 eexists. split; [vm_compute; reflexivity|]. repeat split; vm_compute; reflexivity.
Qed.
