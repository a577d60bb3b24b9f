(** Proofs for C79 and C80. *)
From Coq Require Import QArith Permutation.
From Verif.Base Require Import Py PyFacts Val Numpy.
From Verif.Model Require Import Types Image PdsImage.
From Verif.Model Require Array.
From Verif.Spec Require Import Types Pds4Values Array Image.
From Verif.Spec Require Import PdsImage.
From Verif.Proofs Require Import Array Image.
From Verif.Properties Require Import Types Position.
Open Scope nat_scope.

Lemma count_ok n : count_of (PInt (Z.of_nat n)) = Ok n.
Proof. unfold count_of. destruct (Z.ltb_spec (Z.of_nat n) 0); [lia|]. now rewrite Nat2Z.id. Qed.
Lemma counts_ok l : counts_of (PTuple (map (fun n => PInt (Z.of_nat n)) l)) = Ok l.
Proof. unfold counts_of. induction l as [|n l IH]; [reflexivity|]. cbn [map rmap]. rewrite count_ok. cbn [rbind]. rewrite IH. reflexivity. Qed.
Lemma texts_ok l : rmap text_of (map PStr l) = Ok l.
Proof. induction l as [|n l IH]; [reflexivity|]. cbn [map rmap text_of rbind]. rewrite IH. reflexivity. Qed.
Lemma given_count m k n : says_count m k n -> given count_of m k = Ok (Some n).
Proof. intros H. unfold given. rewrite H. now rewrite count_ok. Qed.
Lemma given_counts m k l : says_counts m k l -> given counts_of m k = Ok (Some l).
Proof. intros H. unfold given. rewrite H. now rewrite counts_ok. Qed.
Lemma given_none {A} (f : pv -> res A) m k : lacks m k -> given f m k = Ok None.
Proof. intros H. unfold given. now rewrite H. Qed.
Lemma given_text m k s : holds m k (PStr s) -> given text_of m k = Ok (Some s).
Proof. intros H. unfold given. now rewrite H. Qed.
Lemma required_count m k n : says_count m k n -> required count_of m k = Ok n.
Proof. intros H. unfold required. rewrite H. apply count_ok. Qed.
Lemma required_text m k s : holds m k (PStr s) -> required text_of m k = Ok s.
Proof. intros H. unfold required. now rewrite H. Qed.
Lemma given_plane m a s k : says_count m (plane_keyword a s) k -> axis_item_bytes m a s = Ok (Some (One k)).
Proof.
  intros H. unfold axis_item_bytes, given. unfold says_count, holds in H.
  replace (axis_name a ++ $"_" ++ side_name s ++ $"_ITEM_BYTES") with (plane_keyword a s) by now destruct a, s.
  rewrite H. unfold item_bytes_of. now rewrite count_ok.
Qed.
Lemma no_plane m a s : lacks m (plane_keyword a s) -> axis_item_bytes m a s = Ok None.
Proof.
  intros H. unfold axis_item_bytes. apply given_none.
  replace (axis_name a ++ $"_" ++ side_name s ++ $"_ITEM_BYTES") with (plane_keyword a s) by now destruct a, s. exact H.
Qed.
Lemma fixes_ok m ib it lb :
  (forall a s, axis_item_bytes m a s = Ok (ib a s)) -> (forall s, given counts_of m (items_keyword s) = Ok (it s)) ->
  (forall s, given count_of m (line_keyword s) = Ok (lb s)) ->
  exists f, fixes_of m = Ok f /\ (forall a s, item_bytes f a s = ib a s) /\ (forall s, items f s = it s) /\ forall s, line_bytes f s = lb s.
Proof.
  intros H1 H2 H3. unfold fixes_of. rewrite !H1. cbn [rbind].
  change $"PREFIX_ITEMS" with (items_keyword PREFIX). change $"SUFFIX_ITEMS" with (items_keyword SUFFIX).
  change $"LINE_PREFIX_BYTES" with (line_keyword PREFIX). change $"LINE_SUFFIX_BYTES" with (line_keyword SUFFIX).
  rewrite !H2, !H3. cbn [rbind]. eexists. split; [reflexivity|]. cbn.
  split; [now intros [] []|]. split; now intros [].
Qed.
Lemma image_fixes m w u v : no_axis_padding m -> line_padding m w PREFIX u -> line_padding m w SUFFIX v -> 0 < w ->
  exists f, fixes_of m = Ok f /\ no_planes f /\ declares_linefix f w PREFIX u /\ declares_linefix f w SUFFIX v.
Proof.
  intros P Hu Hv W.
  assert (L : forall s n, line_padding m w s n -> exists r, given count_of m (line_keyword s) = Ok r /\ forall f, line_bytes f s = r -> declares_linefix f w s n).
  { intros s n [[-> H]|H].
    - exists None. split; [now apply given_none|]. intros f E. left. auto.
    - exists (Some (n * w)). split; [now apply given_count|]. intros f E. destruct n as [|n]; [left; split; [reflexivity|now right]|right; split; [lia|exact E]]. }
  destruct (L _ _ Hu) as (r & Er & Dr), (L _ _ Hv) as (r' & Er' & Dr').
  destruct (fixes_ok m (fun _ _ => None) (fun _ => None) (fun s => match s with PREFIX => r | SUFFIX => r' end)) as (f & E & A & B & C).
  { intros a s. apply no_plane. now apply P. } { intros s. apply given_none. now apply P. } { now intros []. }
  exists f. split; [exact E|]. split; [exact A|]. split; [apply Dr; exact (C PREFIX)|apply Dr'; exact (C SUFFIX)].
Qed.
Lemma unpadded_fixes m : unpadded m -> exists f, fixes_of m = Ok f /\ no_planes f /\ no_linefix f.
Proof.
  intros [A P]. destruct (image_fixes m 1 0 0 A (P PREFIX) (P SUFFIX) ltac:(lia)) as (f & E & N & L1 & L2). exists f. split; [exact E|]. split; [exact N|].
  intros []; [destruct L1 as [[_ L]|[L _]]|destruct L2 as [[_ L]|[L _]]]; try exact L; lia.
Qed.

(** the block of an image *)
Lemma image_many m type w nl ns f nb t : says_image m type w nl ns -> fixes_of m = Ok f -> many_bands m nb t ->
  exists s, t = storage_named s /\ image_of m = Ok (mkImage (8 * w) type nl ns (Some nb) (Some s) f).
Proof.
  intros (S1 & S2 & S3 & S4) F (_ & B & s & T & E). exists s. split; [exact E|]. unfold image_of. rewrite (required_count _ _ _ S1). cbn [rbind].
  rewrite (given_text _ _ _ S2). cbn [rbind]. rewrite (required_count _ _ _ S3). cbn [rbind]. rewrite (required_count _ _ _ S4). cbn [rbind].
  assert (M : md_has m $"BANDS" = true) by (apply md_has_get; eexists; exact B).
  rewrite M, (required_count _ _ _ B). cbn [rbind]. rewrite (given_text _ _ _ T). cbn [rbind]. rewrite F. reflexivity.
Qed.
Lemma image_one m type w nl ns f : says_image m type w nl ns -> fixes_of m = Ok f -> one_band m ->
  exists nb st, (nb = Some 1 \/ nb = None) /\ image_of m = Ok (mkImage (8 * w) type nl ns nb st f).
Proof.
  intros (S1 & S2 & S3 & S4) F B. unfold image_of. rewrite (required_count _ _ _ S1). cbn [rbind].
  rewrite (given_text _ _ _ S2). cbn [rbind]. rewrite (required_count _ _ _ S3). cbn [rbind]. rewrite (required_count _ _ _ S4). cbn [rbind].
  destruct B as [B|[B T]].
  - assert (M : md_has m $"BANDS" = false).
    { destruct (md_has m $"BANDS") eqn:E; [|reflexivity]. apply md_has_get in E. destruct E as [v E]. unfold lacks in B. congruence. }
    rewrite M. cbn [rbind]. rewrite F. exists None, None. split; [now right|reflexivity].
  - assert (M : md_has m $"BANDS" = true) by (apply md_has_get; eexists; exact B).
    rewrite M, (required_count _ _ _ B). cbn [rbind]. destruct T as [T|[t T]].
    + rewrite (given_none _ _ _ T). cbn [rbind]. rewrite F. exists (Some 1), None. split; [now left|reflexivity].
    + rewrite (given_text _ _ _ T). cbn [rbind]. rewrite F. exists (Some 1), (Some t). split; [now left|reflexivity].
Qed.

(** the types *)
Lemma bytes_of_bits w : 8 * w / 8 = w.
Proof. rewrite Nat.mul_comm. now apply Nat.div_mul. Qed.
Lemma type_named name w o f : pds3_type name w o f -> name <> [] /\ name <> $"VAX_REAL".
Proof.
  intros T. assert (I : forall n, ~ integer_name n -> ~ In n big_real_names -> n <> $"PC_REAL" -> underscored name <> n).
  { intros n A B C E. destruct T as [o' s I W Ho Hs|R W|R W]; rewrite E in *; auto. }
  split; intros ->.
  - apply (I []); [|intros H; cbn in H; intuition discriminate|discriminate|reflexivity]. intros H. apply integer_name_iff in H. discriminate H.
  - apply (I $"VAX_REAL"); [|intros H; cbn in H; intuition discriminate|discriminate|reflexivity]. intros H. apply integer_name_iff in H. discriminate H.
Qed.
Lemma image_typed name w o f : pds3_type name w o f ->
  exists dt, typed name w true dt w /\ numpy_meaning dt = Some (t_of o f w).
Proof.
  intros T. destruct (pds3_known _ _ _ _ T) as (dt & E & M). exists dt. split; [|exact M]. split; [now apply type_named in T|]. split; [exact E|].
  exists (t_of o f w). split; [exact M|]. split; [now destruct f as [[]| |]|]. now apply pds3_pos in T.
Qed.
Lemma qube_typed name w o f : qube_type name w o f ->
  exists dt, typed name w false dt w /\ numpy_meaning dt = Some (t_of o f w).
Proof.
  intros [T Q]. destruct (image_typed _ _ _ _ T) as (dt & (N & E & m) & M). exists dt. split; [|exact M]. split; [exact N|]. split; [|exact m]. rewrite <- E.
  clear - T Q. destruct T as [o s I W Ho Hs|R W|R W].
  - destruct Q as [Q|Q]; [discriminate|]. unfold sample_types. rewrite (proj2 (integer_name_iff _) I). unfold integer_code.
    assert (w = 1 \/ w = 2) as [-> | ->] by (cbn in W; lia); reflexivity.
  - unfold sample_types. cbn in R. decompose [or] R; try contradiction; match goal with H : _ = underscored name |- _ => rewrite <- H end;
      cbn in W; decompose [or] W; try contradiction; subst w; reflexivity.
  - unfold sample_types. rewrite R. cbn in W; decompose [or] W; try contradiction; subst w; reflexivity.
Qed.
(** the numbers *)
Lemma item_length file start w k n : k < n -> start + n * w <= length file -> length (item file start w k) = w.
Proof. intros K L. unfold item. rewrite firstn_length, skipn_length. assert (k * w + w <= n * w) by nia. lia. Qed.
Lemma value_ok va name w o f dt bs : pds3_type name w o f -> numpy_meaning dt = Some (t_of o f w) -> length bs = w ->
  cell_holds o f w bs (sample_value np_value va name dt bs).
Proof.
  intros T M L. unfold sample_value, np_value. rewrite M. destruct (str_eqb name $"VAX_REAL") eqn:E.
  { apply str_eqb_eq in E. now apply type_named in T. }
  now apply cell_ok with (name := name).
Qed.
(** the block of a qube *)
Lemma qube_fixes m names w n : 0 < w -> (forall s a, qube_planes m names w s a (n s a)) -> item_counts_ok m -> (forall s, lacks m (line_keyword s)) ->
  exists f, fixes_of m = Ok f /\ no_linefix f /\ (forall s a, planes_or_none f names w s a (n s a)) /\
    forall a s, item_bytes f a s <> None -> md_get m (plane_keyword a s) <> None.
Proof.
  intros W H IC NL.
  assert (P : forall s a, exists r, axis_item_bytes m a s = Ok r /\ (r <> None -> md_get m (plane_keyword a s) <> None) /\
    forall f, (forall s it, given counts_of m (items_keyword s) = Ok it -> items f s = it) -> item_bytes f a s = r -> planes_or_none f names w s a (n s a)).
  { intros s a. destruct (H s a) as [[E L]|(k & cs & i & c & A & B & C & D & E)].
    - exists None. split; [now apply no_plane|]. split; [now intros []|]. intros f _ Ef. now left.
    - exists (Some (One k)). split; [now apply given_plane|]. split; [intros _; rewrite A; discriminate|]. intros f Hf Ef. right. left. exists k, cs, i, c. split; [exact Ef|].
      split; [apply Hf; now apply given_counts|]. split; [exact C|]. now split. }
  assert (IT : forall s, exists it, given counts_of m (items_keyword s) = Ok it).
  { intros s. destruct (IC s) as [L|[l L]]; [exists None; now apply given_none|exists (Some l); now apply given_counts]. }
  destruct (IT PREFIX) as [ip Ep], (IT SUFFIX) as [is_ Es].
  destruct (P PREFIX BAND) as (b1 & B1), (P SUFFIX BAND) as (b2 & B2), (P PREFIX LINE) as (l1 & L1), (P SUFFIX LINE) as (l2 & L2), (P PREFIX SAMPLE) as (s1 & S1), (P SUFFIX SAMPLE) as (s2 & S2).
  destruct (fixes_ok m
    (fun a s => match a, s with BAND, PREFIX => b1 | BAND, SUFFIX => b2 | LINE, PREFIX => l1 | LINE, SUFFIX => l2 | SAMPLE, PREFIX => s1 | SAMPLE, SUFFIX => s2 end)
    (fun s => match s with PREFIX => ip | SUFFIX => is_ end) (fun _ => None)) as (f & E & A & B & C).
  { intros [] []; [apply L1|apply L2|apply S1|apply S2|apply B1|apply B2]. } { now intros []. } { intros s. apply given_none, NL. }
  assert (HI : forall s it, given counts_of m (items_keyword s) = Ok it -> items f s = it).
  { intros s it G. rewrite B. destruct s; [rewrite Ep in G|rewrite Es in G]; now injection G. }
  exists f. split; [exact E|]. split; [intros s; left; apply C|]. split.
  - intros [] []; [apply L1|apply S1|apply B1|apply L2|apply S2|apply B2]; try exact HI; now rewrite A.
  - intros [] []; rewrite A; [apply L1|apply L2|apply S1|apply S2|apply B1|apply B2].
Qed.
Lemma qube_block_ok m type w names counts t f : says_qube m type w names counts -> says_storage m names t -> fixes_of m = Ok f ->
  exists st, qube_of m = Ok (mkQube w type (Some names) counts st f) /\ sample_type_query m = Ok tt /\
    ((exists s, st = Some s /\ storage_named s = t) \/ (st = None /\ names = fastest_first t)).
Proof.
  intros (c & C & W & T & A & N & L1 & L2 & _) S F.
  assert (HS : exists st, given text_of m $"BAND_STORAGE_TYPE" = Ok st /\ ((exists s, st = Some s /\ storage_named s = t) \/ (st = None /\ names = fastest_first t))).
  { destruct S as [(s & Hs & Ht)|[Hs Hn]]; [exists (Some s)|exists None].
    - split; [now apply given_text|]. left. now exists s.
    - split; [now apply given_none|]. now right. }
  destruct HS as (st & Est & HS). exists st. split; [|split; [|exact HS]].
  - unfold qube_of. assert (EC : match md_get m $"CORE" with None => Ok m | Some (PMulti c) | Some (PDict c) => Ok c | Some _ => Err AttributeError end = Ok c).
    { destruct C as [[C ->]|C]; [unfold lacks in C|unfold holds in C]; now rewrite C. }
    rewrite EC. cbn [rbind]. rewrite (required_count _ _ _ W). cbn [rbind]. rewrite (required_text _ _ _ T). cbn [rbind].
    assert (EA : match md_get m $"AXIS_NAME" with
              | Some (PTuple l) => do l <- rmap text_of l; Ok (Some l)
              | Some PNone | None => match md_get c $"AXIS_NAME" with
                  | Some (PTuple l) => do l <- rmap text_of l; Ok (Some l) | None => Ok None | Some _ => Err KeyError end
              | Some _ => Err KeyError end = Ok (Some names)).
    { destruct A as [A|[A1 A2]]; [unfold holds in A; rewrite A|unfold lacks in A1; unfold holds in A2; rewrite A1, A2]; now rewrite texts_ok. }
    rewrite EA. cbn [rbind]. unfold required. unfold says_counts, holds in N. rewrite N, counts_ok. cbn [rbind]. rewrite Est. cbn [rbind]. now rewrite F.
  - unfold sample_type_query. rewrite (given_none _ _ _ L2), (given_none _ _ _ L1). reflexivity.
Qed.
