(** Property C79: the numbers of PDS3 images and qubes. *)
From Coq Require Import QArith Permutation.
From Verif.Base Require Import Py PyFacts Val Numpy.
From Verif.Model Require Import Types Image Position PdsImage.
From Verif.Model Require Array Objects Pvl.
From Verif.Spec Require Import Types Pds4Values Array Image Position.
From Verif.Spec Require Import PdsImage.
From Verif.Proofs Require Import Array Image PdsImage.
From Verif.Spec Require Import Meta.
From Verif.Proofs Require Import Objects.
From Verif.Properties Require Import Types Position Image.
From Verif.Properties Require Meta.
From Verif.Properties Require Import Scaling.
Open Scope nat_scope.

Lemma start_ok p b size t z : starts_at p b size t z -> data_start_byte p b t size = Ok z.
Proof.
  intros H. apply C15_right_byte; [intros d E| intros f d E|intros f l E|exact H]; subst; inversion H; subst;
    match goal with E : _ ++ [_] = _ ++ [_] |- _ => apply app_inj_tail in E; destruct E as [_ E]; subst end.
  - match goal with H : starts_at _ _ _ (PMulti _) _ |- _ => inversion H end.
  - match goal with H : forall l, _ <> _ |- _ => now apply (H l) end.
Qed.
Lemma mentions_iff word name : mentions word name <-> contains word name = true.
Proof. symmetry. apply contains_iff. Qed.
Lemma not_mentions word name : ~ mentions word name -> contains word name = false.
Proof. intros H. destruct (contains word name) eqn:E; [|reflexivity]. now apply mentions_iff in E. Qed.
Lemma pixels_name name : of_pixels name -> image_name name.
Proof. intros [A B]. split; now apply not_mentions. Qed.
Lemma prefix_name name : of_prefixes name -> asks_prefix name.
Proof. apply mentions_iff. Qed.
Lemma suffix_name name : of_suffixes name -> asks_suffix name.
Proof. intros [A B]. split; [now apply not_mentions|now apply mentions_iff]. Qed.
Lemma start_length z n (file : list ascii) : (0 <= z)%Z -> (z + Z.of_nat n <= Z.of_nat (length file))%Z -> Z.to_nat z + n <= length file.
Proof. lia. Qed.

(** ** Images *)
Theorem C79_one_band va product m target name type w o f nl ns file mem size z :
  says_image m type w nl ns -> one_band m -> unpadded m -> pds3_type type w o f -> of_pixels name -> ~ of_qube name ->
  starts_at product (Some m) size target z -> (z + Z.of_nat (nl * ns * w) <= Z.of_nat (length file))%Z ->
  exists a, load_image va product m target name file mem size = Ok (Some a) /\ shape a = [nl; ns] /\
    forall l s, l < nl -> s < ns -> cell_holds o f w (item file (Z.to_nat z) w (l * ns + s)) (at_ a [l; s]).
Proof.
  intros S B U T N Q P L. pose proof (start_ok _ _ _ _ _ P) as E. pose proof (C15_nonnegative _ _ _ _ _ E) as Z0.
  apply start_length in L; [|exact Z0].
  destruct (unpadded_fixes m U) as (fx & F & NP & NL). destruct (image_one _ _ _ _ _ _ S F B) as (nb & st & Hnb & I).
  destruct (image_typed _ _ _ _ T) as (dt & Ty & M). unfold load_image. rewrite E. cbn [rbind]. unfold properties_of. rewrite (not_mentions _ _ Q), I. cbn [rbind].
  destruct (C22_single_band _ np_value va (mkImage (8 * w) type nl ns nb st fx) name file mem (Z.to_nat z) dt w) as (p & a & E1 & E2 & E3 & E4);
    cbn [BANDS IFIXES SAMPLE_TYPE SAMPLE_BITS LINES LINE_SAMPLES] in *; try assumption.
  { now rewrite bytes_of_bits. } { now apply pixels_name. }
  rewrite E1. cbn [rbind]. exists a. split; [exact E2|]. split; [exact E3|]. intros l s Hl Hs. rewrite E4 by assumption. apply value_ok; [exact T|exact M|].
  apply item_length with (n := nl * ns); [nia|exact L].
Qed.
Print Assumptions C79_one_band.

Theorem C79_many_bands va product m target name type w o f nb nl ns t file mem size z :
  says_image m type w nl ns -> many_bands m nb t -> unpadded m -> pds3_type type w o f -> of_pixels name -> ~ of_qube name ->
  starts_at product (Some m) size target z -> (z + Z.of_nat (nb * nl * ns * w) <= Z.of_nat (length file))%Z ->
  exists a, load_image va product m target name file mem size = Ok (Some a) /\ shape a = [nb; nl; ns] /\
    forall b l s, b < nb -> l < nl -> s < ns ->
      cell_holds o f w (item file (Z.to_nat z) w (position t nb nl ns b l s)) (at_ a [b; l; s]).
Proof.
  intros S B U T N Q P L. pose proof (start_ok _ _ _ _ _ P) as E. pose proof (C15_nonnegative _ _ _ _ _ E) as Z0.
  apply start_length in L; [|exact Z0].
  destruct (unpadded_fixes m U) as (fx & F & NP & NL). destruct (image_many _ _ _ _ _ _ _ _ S F B) as (sn & Ht & I).
  destruct (image_typed _ _ _ _ T) as (dt & Ty & M). unfold load_image. rewrite E. cbn [rbind]. unfold properties_of. rewrite (not_mentions _ _ Q), I. cbn [rbind].
  destruct (C22_multiband _ np_value va (mkImage (8 * w) type nl ns (Some nb) (Some sn) fx) nb sn name file mem (Z.to_nat z) dt w) as (p & a & E1 & E2 & E3 & E4);
    cbn [BANDS IFIXES SAMPLE_TYPE SAMPLE_BITS LINES LINE_SAMPLES BAND_STORAGE_TYPE] in *; try assumption; try reflexivity.
  { apply B. } { now rewrite bytes_of_bits. } { now apply pixels_name. }
  rewrite E1. cbn [rbind]. exists a. split; [exact E2|]. split; [exact E3|]. intros b l s Hb Hl Hs. rewrite E4 by assumption. rewrite <- Ht.
  apply value_ok; [exact T|exact M|]. apply item_length with (n := nb * nl * ns); [|exact L]. clear - Hb Hl Hs. destruct t; cbn [position].
  - assert ((b * nl + l) < nb * nl) by nia. nia.
  - assert (l * ns + s < nl * ns) by nia. assert ((l * ns + s) * nb + b < nl * ns * nb) by nia. nia.
  - assert (l * nb + b < nl * nb) by nia. assert ((l * nb + b) * ns + s < nl * nb * ns) by nia. nia.
Qed.
Print Assumptions C79_many_bands.
(** lines with [u] samples before their pixels and [v] after them: three objects *)
Theorem C79_padded_lines va product m target type w o f nl ns u v file mem size z :
  says_image m type w nl ns -> one_band m -> no_axis_padding m -> line_padding m w PREFIX u -> line_padding m w SUFFIX v -> pds3_type type w o f ->
  starts_at product (Some m) size target z -> let n := u + ns + v in (z + Z.of_nat (nl * n * w) <= Z.of_nat (length file))%Z ->
  exists image prefixes suffixes,
    let load name := load_image va product m target name file mem size in
    let sample l i := cell_holds o f w (item file (Z.to_nat z) w (l * n + i)) in
    (forall name, ~ of_qube name -> of_pixels name -> load name = Ok (Some image)) /\
    (forall name, ~ of_qube name -> of_prefixes name -> load name = Ok prefixes) /\
    (forall name, ~ of_qube name -> of_suffixes name -> load name = Ok suffixes) /\
    shape image = [nl; ns] /\ (forall l s, l < nl -> s < ns -> sample l (u + s) (at_ image [l; s])) /\
    line_samples prefixes nl u (fun l i => sample l i) /\ line_samples suffixes nl v (fun l i => sample l (u + ns + i)).
Proof.
  intros S B NA U V T P n L. pose proof (start_ok _ _ _ _ _ P) as E. pose proof (C15_nonnegative _ _ _ _ _ E) as Z0.
  apply start_length in L; [|exact Z0]. pose proof (pds3_pos _ _ _ _ T) as W.
  destruct (image_fixes m w u v NA U V W) as (fx & F & NP & LU & LV). destruct (image_one _ _ _ _ _ _ S F B) as (nb & st & Hnb & I).
  destruct (image_typed _ _ _ _ T) as (dt & Ty & M).
  destruct (C23_single_band _ np_value va (mkImage (8 * w) type nl ns nb st fx) u v file mem (Z.to_nat z) dt w) as (p & im & pre & suf & E1 & E2 & E3 & E4 & E5 & E6 & E7 & E8);
    cbn [BANDS IFIXES SAMPLE_TYPE SAMPLE_BITS LINES LINE_SAMPLES] in *; rewrite ?bytes_of_bits in *; try assumption. { lia. }
  assert (V0 : forall l i, l < nl -> i < n -> cell_holds o f w (item file (Z.to_nat z) w (l * n + i)) (np_value dt (item file (Z.to_nat z) w (l * n + i)))).
  { intros l i Hl Hi. unfold np_value. rewrite M. apply cell_ok with (name := type); [exact T|]. apply item_length with (n := nl * n); [nia|exact L]. }
  assert (V1 : forall bs, sample_value np_value va type dt bs = np_value dt bs).
  { intros bs. unfold sample_value. destruct (str_eqb type $"VAX_REAL") eqn:X; [|reflexivity]. apply str_eqb_eq in X. now apply type_named in T. }
  assert (LO : forall name, ~ of_qube name -> load_image va product m target name file mem size = read_image Array.cell np_value va name p file mem (Z.to_nat z)).
  { intros name Q. unfold load_image. rewrite E. cbn [rbind]. unfold properties_of. rewrite (not_mentions _ _ Q), I. cbn [rbind]. now rewrite E1. }
  exists im, pre, suf. cbv zeta. split; [intros name Q N; rewrite (LO _ Q); now apply E2, pixels_name|].
  split; [intros name Q N; rewrite (LO _ Q); now apply E3, prefix_name|]. split; [intros name Q N; rewrite (LO _ Q); now apply E4, suffix_name|].
  split; [exact E5|]. split. { intros l s Hl Hs. rewrite E6 by assumption. rewrite V1. apply V0; lia. }
  split; [revert E7|revert E8]; unfold part, line_samples; [destruct pre as [a|]|destruct suf as [a|]]; try trivial; intros (A & C & D); (split; [exact A|]; split; [exact C|]);
    intros l i Hl Hi; rewrite D by assumption; apply V0; lia.
Qed.
Print Assumptions C79_padded_lines.

(** a file that ends early, or records the label does not let count: no image *)
Theorem C79_short_file va product m target name type w o f nl ns file mem size z a :
  says_image m type w nl ns -> one_band m -> unpadded m -> pds3_type type w o f -> ~ of_qube name ->
  starts_at product (Some m) size target z -> (z <= Z.of_nat (length file) < z + Z.of_nat (nl * ns * w))%Z ->
  load_image va product m target name file mem size <> Ok a.
Proof.
  intros S B U T Q P L. pose proof (start_ok _ _ _ _ _ P) as E. pose proof (C15_nonnegative _ _ _ _ _ E) as Z0.
  destruct (unpadded_fixes m U) as (fx & F & NP & NL). destruct (image_one _ _ _ _ _ _ S F B) as (nb & st & Hnb & I).
  destruct (image_typed _ _ _ _ T) as (dt & Ty & M). unfold load_image. rewrite E. cbn [rbind]. unfold properties_of. rewrite (not_mentions _ _ Q), I. cbn [rbind].
  destruct (generic_image_properties _) as [p|] eqn:G; cbn [rbind]; [|discriminate].
  erewrite (C22_short_file _ np_value va (mkImage (8 * w) type nl ns nb st fx) 1 name file mem (Z.to_nat z) dt w p); [discriminate|..];
    cbn [BANDS IFIXES SAMPLE_TYPE SAMPLE_BITS LINES LINE_SAMPLES]; try assumption; try lia.
  - destruct Hnb as [-> | ->]; [now left|now right].
  - now rewrite bytes_of_bits.
Qed.
Print Assumptions C79_short_file.

(** ** Qubes, whose planes (if any) are before or after the core along one axis *)
Lemma along_n (ax x : axis) (n : side -> axis -> nat) : (forall a, a <> ax -> n PREFIX a = 0 /\ n SUFFIX a = 0) ->
  along ax x (n PREFIX ax + n SUFFIX ax) = n PREFIX x + n SUFFIX x /\ along ax x (n PREFIX ax) = n PREFIX x.
Proof.
  intros H. unfold along. destruct (axis_eqb ax x) eqn:E.
  - assert (ax = x) as -> by (destruct ax, x; discriminate || reflexivity). auto.
  - assert (N : x <> ax) by (intros ->; destruct ax; discriminate). destruct (H x N) as [-> ->]. auto.
Qed.
Theorem C79_qube va product m target name type w o f names counts t nb nl ns ax n file mem size z :
  says_qube m type w names counts -> Permutation names [$"LINE"; $"SAMPLE"; $"BAND"] -> says_storage m names t ->
  core_size names counts BAND nb -> core_size names counts LINE nl -> core_size names counts SAMPLE ns -> nb <> 1 -> qube_type type w o f ->
  (forall s a, qube_planes m names w s a (n s a)) -> item_counts_ok m -> (forall a, n SUFFIX a = 0 -> lacks m (plane_keyword a SUFFIX)) ->
  (forall a, a <> ax -> n PREFIX a = 0 /\ n SUFFIX a = 0) -> of_pixels name -> of_qube name -> starts_at product (Some m) size target z ->
  let whole core a := core + (n PREFIX a + n SUFFIX a) in
  let B := whole nb BAND in let L := whole nl LINE in let S := whole ns SAMPLE in
  (z + Z.of_nat (B * L * S * w) <= Z.of_nat (length file))%Z ->
  exists a, load_image va product m target name file mem size = Ok (Some a) /\ shape a = [nb; nl; ns] /\
    forall b l s, b < nb -> l < nl -> s < ns ->
      cell_holds o f w (item file (Z.to_nat z) w (position t B L S (n PREFIX BAND + b) (n PREFIX LINE + l) (n PREFIX SAMPLE + s))) (at_ a [b; l; s]).
Proof.
  intros SQ Pe St CB CL CS NB [T Q2] PL IC NS AX N Q P whole B L S Len. pose proof (start_ok _ _ _ _ _ P) as E. pose proof (C15_nonnegative _ _ _ _ _ E) as Z0.
  apply start_length in Len; [|exact Z0]. pose proof (pds3_pos _ _ _ _ T) as W. assert (LK : forall s, lacks m (line_keyword s)) by (destruct SQ as (c0 & _ & _ & _ & _ & _ & _ & _ & H0); exact H0).
  destruct (qube_fixes m names w n W PL IC LK) as (fx & F & NLf & PN & HS). destruct (qube_block_ok _ _ _ _ _ _ _ SQ St F) as (st & EQ & ES & Hst).
  destruct (qube_typed type w o f (conj T Q2)) as (dt & Ty & M).
  unfold load_image. rewrite E. cbn [rbind]. unfold properties_of. apply mentions_iff in Q. rewrite Q, ES. cbn [rbind]. rewrite EQ. cbn [rbind].
  destruct (C24_qube _ np_value va (mkQube w type (Some names) counts st fx) names t nb nl ns ax (n PREFIX ax) (n SUFFIX ax) n name file mem (Z.to_nat z) dt w)
    as (p & a & l0 & E1 & E2 & E3 & E4 & _);
    cbn [AXIS_NAME CORE_ITEM_TYPE CORE_ITEM_BYTES QFIXES] in *; try assumption; try reflexivity.
  { intros x Hx. specialize (HS x SUFFIX Hx). destruct (n SUFFIX x) eqn:Ex; [|lia]. now destruct (HS (NS x Ex)). }
  { intros x Hx. destruct (AX x Hx). lia. } { now apply pixels_name. }
  { rewrite !(proj1 (along_n ax _ n AX)). exact Len. }
  rewrite E1. cbn [rbind]. exists a. split; [exact E2|]. split; [exact E3|]. intros b l s Hb Hl Hs. rewrite E4 by assumption.
  rewrite !(proj1 (along_n ax _ n AX)), !(proj2 (along_n ax _ n AX)). fold (whole nb BAND) (whole nl LINE) (whole ns SAMPLE). fold B L S. apply value_ok; [exact T|exact M|].
  apply item_length with (n := B * L * S); [|exact Len]. assert (n PREFIX BAND + b < B) by (unfold B, whole; lia). assert (n PREFIX LINE + l < L) by (unfold L, whole; lia).
  assert (n PREFIX SAMPLE + s < S) by (unfold S, whole; lia). generalize dependent (n PREFIX BAND + b). generalize dependent (n PREFIX LINE + l). generalize dependent (n PREFIX SAMPLE + s).
  clear. clearbody B L S. intros s Hs l Hl b Hb. destruct t; cbn [position].
  - assert ((b * L + l) < B * L) by nia. nia.
  - assert (l * S + s < L * S) by nia. assert ((l * S + s) * B + b < L * S * B) by nia. nia.
  - assert (l * B + b < L * B) by nia. assert ((l * B + b) * S + s < L * B * S) by nia. nia.
Qed.
Print Assumptions C79_qube.
Theorem C79_qube_of_one_band va product m target name type w o f names counts t nl ns ax n file mem size z :
  says_qube m type w names counts -> Permutation names [$"LINE"; $"SAMPLE"; $"BAND"] -> says_storage m names t ->
  core_size names counts BAND 1 -> core_size names counts LINE nl -> core_size names counts SAMPLE ns -> qube_type type w o f ->
  (forall s a, qube_planes m names w s a (n s a)) -> item_counts_ok m -> (forall a, n SUFFIX a = 0 -> lacks m (plane_keyword a SUFFIX)) -> ax <> BAND ->
  (forall a, a <> ax -> n PREFIX a = 0 /\ n SUFFIX a = 0) -> of_pixels name -> of_qube name -> starts_at product (Some m) size target z ->
  let whole core a := core + (n PREFIX a + n SUFFIX a) in let L := whole nl LINE in let S := whole ns SAMPLE in
  (z + Z.of_nat (L * S * w) <= Z.of_nat (length file))%Z ->
  exists a, load_image va product m target name file mem size = Ok (Some a) /\ shape a = [nl; ns] /\
    forall l s, l < nl -> s < ns ->
      cell_holds o f w (item file (Z.to_nat z) w ((n PREFIX LINE + l) * S + (n PREFIX SAMPLE + s))) (at_ a [l; s]).
Proof.
  intros SQ Pe St CB CL CS [T Q2] PL IC NS NBa AX N Q P whole L S Len. pose proof (start_ok _ _ _ _ _ P) as E. pose proof (C15_nonnegative _ _ _ _ _ E) as Z0.
  apply start_length in Len; [|exact Z0]. pose proof (pds3_pos _ _ _ _ T) as W. assert (LK : forall s, lacks m (line_keyword s)) by (destruct SQ as (c0 & _ & _ & _ & _ & _ & _ & _ & H0); exact H0).
  destruct (qube_fixes m names w n W PL IC LK) as (fx & F & NLf & PN & HS). destruct (qube_block_ok _ _ _ _ _ _ _ SQ St F) as (st & EQ & ES & Hst).
  destruct (qube_typed type w o f (conj T Q2)) as (dt & Ty & M).
  unfold load_image. rewrite E. cbn [rbind]. unfold properties_of. apply mentions_iff in Q. rewrite Q, ES. cbn [rbind]. rewrite EQ. cbn [rbind].
  destruct (C24_one_band _ np_value va (mkQube w type (Some names) counts st fx) names t nl ns ax (n PREFIX ax) (n SUFFIX ax) n name file mem (Z.to_nat z) dt w)
    as (p & a & E1 & E2 & E3 & E4);
    cbn [AXIS_NAME CORE_ITEM_TYPE CORE_ITEM_BYTES QFIXES] in *; try assumption; try reflexivity.
  { intros x Hx. specialize (HS x SUFFIX Hx). destruct (n SUFFIX x) eqn:Ex; [|lia]. now destruct (HS (NS x Ex)). }
  { intros x Hx. destruct (AX x Hx). lia. } { now apply pixels_name. }
  { rewrite !(proj1 (along_n ax _ n AX)). exact Len. }
  rewrite E1. cbn [rbind]. exists a. split; [exact E2|]. split; [exact E3|]. intros l s Hl Hs. rewrite E4 by assumption.
  rewrite !(proj1 (along_n ax _ n AX)), !(proj2 (along_n ax _ n AX)). fold (whole nl LINE) (whole ns SAMPLE). fold L S. apply value_ok; [exact T|exact M|].
  apply item_length with (n := L * S); [|exact Len]. assert (n PREFIX LINE + l < L) by (unfold L, whole; lia).
  assert (n PREFIX SAMPLE + s < S) by (unfold S, whole; lia). nia.
Qed.
Print Assumptions C79_qube_of_one_band.

(** ** In a product: the label gives the block of the object, its pointer, and the size of its
    records, each once *)
Lemma mget_unique o label params k v : In k params -> values_of k (PMulti label) = [v] -> Objects.mget o label params k = v.
Proof.
  intros I E. pose proof (Meta.C10_unique o (fun _ _ => true) label params k PNone v I eq_refl E) as H. unfold Meta.fresh_get in H.
  rewrite mget_meta in H. injection H as H. rewrite H. now destruct v.
Qed.
Lemma mblock_unique o label params k b : In k params -> values_of k (PMulti label) = [PMulti b] -> Objects.mblock o label params k = PMulti b.
Proof.
  intros I E. pose proof (Meta.C11_unique o label params k (PMulti b) I E eq_refl) as H. unfold Meta.fresh_block in H. now rewrite mblock_meta in H.
Qed.
Theorem C79_product va ord label params load st name m target r type w o f nl ns file mem size z :
  In name params -> values_of name (PMulti label) = [PMulti m] -> (forall r, name <> "^"%char :: r) ->
  In ("^"%char :: name) params -> values_of ("^"%char :: name) (PMulti label) = [target] ->
  In $"RECORD_BYTES" params -> values_of $"RECORD_BYTES" (PMulti label) = [PInt r] -> Objects.parent_of st name = None ->
  says_image m type w nl ns -> one_band m -> unpadded m -> pds3_type type w o f -> of_pixels name -> ~ of_qube name ->
  starts_at (PInt r) (Some m) size target z -> (z + Z.of_nat (nl * ns * w) <= Z.of_nat (length file))%Z ->
  exists a, load_object va ord label params load st name file mem size = Ok (Some a) /\ shape a = [nl; ns] /\
    forall l s, l < nl -> s < ns -> cell_holds o f w (item file (Z.to_nat z) w (l * ns + s)) (at_ a [l; s]).
Proof.
  intros I1 E1 Na I2 E2 I3 E3 Pa S B U T N Q P L. unfold load_object, Objects.get_block, Objects.get_target. rewrite Pa, (mblock_unique _ _ _ _ _ I1 E1). cbn [rbind].
  rewrite (mget_unique _ _ _ _ _ I3 E3), (mget_unique _ _ _ _ _ I1 E1). 
  assert (Pt : Pvl.pointerize name = "^"%char :: name).
  { unfold Pvl.pointerize. destruct (startswith $"^" name) eqn:X; [|reflexivity]. apply startswith_iff in X. destruct X as [x ->]. now destruct (Na x). }
  rewrite Pt, (mget_unique _ _ _ _ _ I2 E2). now apply C79_one_band with (type := type).
Qed.
Print Assumptions C79_product.

(** ** What is not read as one would expect *)
(** reals of IBM computers, in an image, become the unsigned integers that their bytes hold *)
Theorem C79_ibm_reals_refuted va product m target name w nl ns file mem size z :
  says_image m $"IBM_REAL" w nl ns -> In w [4; 8] -> one_band m -> unpadded m -> of_pixels name -> ~ of_qube name ->
  starts_at product (Some m) size target z -> (z + Z.of_nat (nl * ns * w) <= Z.of_nat (length file))%Z ->
  exists a, load_image va product m target name file mem size = Ok (Some a) /\ shape a = [nl; ns] /\
    forall l s, l < nl -> s < ns -> cell_holds MSB (Integer false) w (item file (Z.to_nat z) w (l * ns + s)) (at_ a [l; s]).
Proof.
  intros S W B U N Q P L. pose proof (start_ok _ _ _ _ _ P) as E. pose proof (C15_nonnegative _ _ _ _ _ E) as Z0.
  apply start_length in L; [|exact Z0]. destruct (Types.C17_reals $"IBM_REAL" w W) as (_ & _ & R & _). destruct (R eq_refl) as (dt & Es & M).
  destruct (unpadded_fixes m U) as (fx & F & NP & NL). destruct (image_one _ _ _ _ _ _ S F B) as (nb & st & Hnb & I).
  unfold load_image. rewrite E. cbn [rbind]. unfold properties_of. rewrite (not_mentions _ _ Q), I. cbn [rbind].
  destruct (C22_single_band _ np_value va (mkImage (8 * w) $"IBM_REAL" nl ns nb st fx) name file mem (Z.to_nat z) dt w) as (p & a & E1 & E2 & E3 & E4);
    cbn [BANDS IFIXES SAMPLE_TYPE SAMPLE_BITS LINES LINE_SAMPLES] in *; try assumption.
  { rewrite bytes_of_bits. split; [discriminate|]. split; [exact Es|]. eexists. split; [exact M|]. split; [reflexivity|]. cbn in W. lia. } { now apply pixels_name. }
  rewrite E1. cbn [rbind]. exists a. split; [exact E2|]. split; [exact E3|]. intros l s Hl Hs. rewrite E4 by assumption. unfold sample_value.
  change (str_eqb $"IBM_REAL" $"VAX_REAL") with false. cbv iota. unfold np_value. rewrite M.
  apply (cell_ok $"MSB_UNSIGNED_INTEGER" w MSB (Integer false)).
  - apply p_integer.
    + apply integer_name_iff. reflexivity.
    + cbn in *. lia.
    + split; [discriminate|]. intros H. apply little_iff in H. discriminate H.
    + split; [|reflexivity]. intros _. exists $"MSB_", $"_INTEGER". reflexivity.
  - apply item_length with (n := nl * ns); [nia|exact L].
Qed.
Print Assumptions C79_ibm_reals_refuted.
(** integers of four bytes, in a qube, are read eight bytes at a time *)
Definition bytes (l : list nat) : list ascii := map ascii_of_nat l.
Definition wide_qube : multidict :=
  [($"CORE_ITEM_BYTES", PInt 4); ($"CORE_ITEM_TYPE", PStr $"MSB_INTEGER"); ($"AXIS_NAME", PTuple (map PStr [$"SAMPLE"; $"LINE"; $"BAND"]));
   ($"CORE_ITEMS", PTuple [PInt 2; PInt 1; PInt 1])].
Theorem C79_qube_integers_refuted va : let file := bytes [0;0;0;1; 0;0;0;2; 0;0;0;3; 0;0;0;4] in
  says_qube wide_qube $"MSB_INTEGER" 4 [$"SAMPLE"; $"LINE"; $"BAND"] [2; 1; 1] /\ pds3_type $"MSB_INTEGER" 4 MSB (Integer true) /\
  exists r, load_image va PNone wide_qube (PInt 1) $"QUBE" file false 16 = Ok r /\
    exists a, r = Some a /\ shape a = [1; 2] /\ at_ a [0; 0] = Array.CNum (Pds4Types.EI 4294967298) /\
      ~ cell_holds MSB (Integer true) 4 (item file 0 4 0) (at_ a [0; 0]).
Proof.
  intros file. split; [|split].
  - exists wide_qube. split; [left; split; reflexivity|]. split; [reflexivity|]. split; [reflexivity|]. split; [left; reflexivity|].
    split; [reflexivity|]. split; [reflexivity|]. split; [reflexivity|]. now intros [].
  - apply p_integer; [apply integer_name_iff; reflexivity|cbn; auto| |].
    + split; [discriminate|]. intros H. apply little_iff in H. discriminate H.
    + split; [discriminate|]. intros H. apply contains_iff in H. discriminate H.
  - assert (E : exists r, load_image va PNone wide_qube (PInt 1) $"QUBE" file false 16 = Ok r /\
      match r with Some a => shape a = [1; 2] /\ at_ a [0; 0] = Array.CNum (Pds4Types.EI 4294967298) | None => False end).
    { apply ok_with. vm_compute. split; reflexivity. }
    destruct E as ([a|] & E & H); [|contradiction]. exists (Some a). split; [exact E|]. exists a. split; [reflexivity|]. destruct H as [H1 H2].
    split; [exact H1|]. split; [exact H2|]. rewrite H2. intros (p & Ep & v & Ev & (_ & R) & _). injection Ep as <-. injection Ev as <-. vm_compute in R. discriminate R.
Qed.
Print Assumptions C79_qube_integers_refuted.
(** without a type of samples there is no image *)
Theorem C79_no_type va product m target name file mem size a : ~ of_qube name -> lacks m $"SAMPLE_TYPE" ->
  load_image va product m target name file mem size <> Ok a.
Proof.
  intros Q L. unfold load_image. destruct (data_start_byte _ _ _ _) as [z|]; cbn [rbind]; [|discriminate]. unfold properties_of. rewrite (not_mentions _ _ Q).
  destruct (image_of m) as [b|] eqn:I; cbn [rbind]; [|discriminate].
  assert (Ty : SAMPLE_TYPE b = []).
  { unfold image_of in I. rewrite (given_none text_of _ _ L) in I. cbn [rbind] in I.
    repeat match type of I with rbind ?e _ = _ => destruct e; cbn [rbind] in I; [|discriminate I] end. now injection I as <-. }
  destruct (generic_image_properties b) as [p|] eqn:G; cbn [rbind]; [|discriminate].
  assert (Sy : styp p = None).
  { unfold generic_image_properties, im_sample_type in G. rewrite Ty in G. cbn [rbind] in G.
    repeat match type of G with rbind ?e _ = _ => destruct e; cbn [rbind] in G; [|discriminate G] end. now injection G as <-. }
  assert (Fd : format_dtype p = Err TypeError) by (unfold format_dtype; now rewrite Sy).
  unfold read_image, load_pixels. destruct (pixel_count p); cbn [rbind]; [|discriminate]. destruct (key (nrows p)); cbn [rbind]; [|discriminate].
  destruct (key (ncols p)); cbn [rbind]; [|discriminate]. destruct (key (nbands p)) as [nb|]; cbn [rbind]; [|discriminate].
  unfold process_single_band_image, process_multiband_image. rewrite Fd. destruct (nb =? 1); cbn [rbind]; try discriminate.
Qed.
Print Assumptions C79_no_type.

(** ** An attached image: two lines of two samples after a record of 8 bytes, and a label that says so *)
Definition ex_image : multidict :=
  [($"LINES", PInt 2); ($"LINE_SAMPLES", PInt 2); ($"SAMPLE_TYPE", PStr $"LSB INTEGER"); ($"SAMPLE_BITS", PInt 16); ($"LINE_PREFIX_BYTES", PInt 0)].
Definition ex_label : multidict := [($"RECORD_BYTES", PInt 8); ($"^IMAGE", PInt 2); ($"IMAGE", PMulti ex_image)].
Definition ex_keys : list str := [$"RECORD_BYTES"; $"^IMAGE"; $"IMAGE"].
Definition ex_file : list ascii := bytes [9;9;9;9;9;9;9;9; 1;0; 2;0; 255;255; 0;1].
Example C79_meets :
  In $"IMAGE" ex_keys /\ values_of $"IMAGE" (PMulti ex_label) = [PMulti ex_image] /\ values_of $"^IMAGE" (PMulti ex_label) = [PInt 2] /\
  values_of $"RECORD_BYTES" (PMulti ex_label) = [PInt 8] /\
  says_image ex_image $"LSB INTEGER" 2 2 2 /\ one_band ex_image /\ unpadded ex_image /\ pds3_type $"LSB INTEGER" 2 LSB (Integer true) /\
  of_pixels $"IMAGE" /\ ~ of_qube $"IMAGE" /\ starts_at (PInt 8) (Some ex_image) 16 (PInt 2) 8 /\ (8 + Z.of_nat (2 * 2 * 2) <= Z.of_nat (length ex_file))%Z /\
  exists r, load_object (fun c => c) Pvl.DepthFirst ex_label ex_keys (fun _ => Err KeyError) (Objects.mkFound [] [] []) $"IMAGE" ex_file false 16 = Ok r /\
    option_map ravel r = Some (map (fun z => Array.CNum (Pds4Types.EI z)) [1; 2; -1; 256]%Z).
Proof.
  split; [cbn; auto|]. split; [reflexivity|]. split; [reflexivity|]. split; [reflexivity|]. split; [repeat split|]. split; [left; reflexivity|].
  split; [split; [intros s; split; [destruct s; reflexivity|intros a; destruct a, s; reflexivity]|intros []; [right|left; split]; reflexivity]|].
  split. { apply p_integer; [apply integer_name_iff; reflexivity|cbn; auto| |].
    - split; [|reflexivity]. intros _. apply little_iff. reflexivity.
    - split; [discriminate|]. intros H. apply contains_iff in H. discriminate H. }
  split; [split; intros H; apply mentions_iff in H; discriminate H|]. split; [intros H; apply mentions_iff in H; discriminate H|].
  split; [apply (at_record _ _ _ 2 8); [lia|lia|right; split; reflexivity]|]. split; [vm_compute; discriminate|]. apply ok_with. vm_compute. reflexivity.
Qed.
(** a qube with a plane of one sample after each line of its core *)
Definition ex_qube : multidict :=
  [($"AXIS_NAME", PTuple (map PStr [$"SAMPLE"; $"LINE"; $"BAND"])); ($"SUFFIX_ITEMS", PTuple [PInt 1; PInt 0; PInt 0]); ($"SAMPLE_SUFFIX_ITEM_BYTES", PInt 2);
   ($"CORE", PMulti [($"CORE_ITEMS", PTuple [PInt 2; PInt 1; PInt 2]); ($"CORE_ITEM_BYTES", PInt 2); ($"CORE_ITEM_TYPE", PStr $"MSB_UNSIGNED_INTEGER")])].
Definition ex_planes (s : side) (a : axis) : nat := match s, a with SUFFIX, SAMPLE => 1 | _, _ => 0 end.
Example C79_qube_meets : let names := [$"SAMPLE"; $"LINE"; $"BAND"] in
  says_qube ex_qube $"MSB_UNSIGNED_INTEGER" 2 names [2; 1; 2] /\ says_storage ex_qube names BSQ /\ core_size names [2; 1; 2] BAND 2 /\
  (forall s a, qube_planes ex_qube names 2 s a (ex_planes s a)) /\ item_counts_ok ex_qube /\ (forall a, ex_planes SUFFIX a = 0 -> lacks ex_qube (plane_keyword a SUFFIX)) /\
  exists r, load_image (fun c => c) PNone ex_qube (PStr $"A.QUB") $"SPECTRAL_QUBE" (bytes [0;1; 0;2; 9;9; 1;0; 255;0; 9;9]) true 12 = Ok r /\
    option_map ravel r = Some (map (fun z => Array.CNum (Pds4Types.EI z)) [1; 2; 256; 65280]%Z).
Proof.
  intros names. split.
  { eexists. split; [right; reflexivity|]. split; [reflexivity|]. split; [reflexivity|]. split; [left; reflexivity|]. split; [reflexivity|].
    split; [reflexivity|]. split; [reflexivity|]. now intros []. }
  split; [right; split; reflexivity|]. split; [exists 2; split; reflexivity|].
  split. { intros [] []; try (left; split; reflexivity). right. exists 2, [1; 0; 0], 0, 1. repeat split. }
  split. { intros []; [left; reflexivity|right; exists [1; 0; 0]; reflexivity]. }
  split; [intros []; [reflexivity|discriminate|reflexivity]|]. apply ok_with. vm_compute. reflexivity.
Qed.
