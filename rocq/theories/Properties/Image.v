(** Properties C22-C24: reading of IMAGE and QUBE objects. *)
From Coq Require Import Permutation.
From Verif.Base Require Import Py PyFacts Numpy.
From Verif.Model Require Import Types Image.
From Verif.Spec Require Import Image.
From Verif.Proofs Require Import Image.
Open Scope nat_scope.

Lemma skipn_skipn {A} (l : list A) n m : skipn n (skipn m l) = skipn (m + n) l.
Proof. revert m. induction l as [|x l IH]; intros [|m]; cbn; rewrite ?skipn_nil; auto. Qed.
Lemma raw_item {A} (dec : str -> list ascii -> A) file m start dt w k :
  raw dec (mkStream (skipn start file) m) dt w k = dec dt (item file start w k).
Proof. unfold raw, item. cbn [rest]. now rewrite skipn_skipn. Qed.
Lemma conv_value {A} (dec : str -> list ascii -> A) v p name dt bytes : is_vax p = str_eqb name $"VAX_REAL" ->
  conv v p (dec dt bytes) = sample_value dec v name dt bytes.
Proof. intros H. unfold conv, sample_value. now rewrite H. Qed.
Lemma image_props b nb t dt w : no_planes (IFIXES b) -> typed (SAMPLE_TYPE b) (SAMPLE_BITS b / 8) true dt w ->
  (BANDS b = Some nb /\ BAND_STORAGE_TYPE b = t /\ (t = None -> nb <= 1) \/ BANDS b = None /\ nb = 1 /\ t = None) ->
  forall lf k, linefix_metadata (IFIXES b) (SAMPLE_BITS b / 8) = Ok (lf, k) ->
  exists p, generic_image_properties b = Ok p /\ is_vax p = str_eqb (SAMPLE_TYPE b) $"VAX_REAL" /\
    nrows p = Some (LINES b) /\ ncols p = Some (LINE_SAMPLES b) /\ nbands p = Some nb /\ bst p = t /\
    (forall s x, planes p s x = None) /\ (forall x, pad p x = 0) /\ linefix p = lf /\ linepad p = k /\
    format_dtype p = Ok (dt, w).
Proof.
  intros Hn (Hne & Hdt & m & Hm & Hw & _) Hb lf k Hlf. unfold generic_image_properties, im_sample_type.
  destruct (SAMPLE_TYPE b) as [|ch ty] eqn:Ety; [congruence|]. rewrite Hdt. cbn [rbind].
  rewrite (axplane_metadata_none _ _ _ Hn), Hlf.
  assert (Hnb : match BANDS b with
           | Some n => match BAND_STORAGE_TYPE b with
                       | None => if 1 <? n then Err ValueError else Ok (n, None)
                       | t => Ok (n, t)
                       end
           | None => Ok (1, None)
           end = Ok (nb, t)).
  { destruct Hb as [(-> & -> & Ht)|(-> & -> & ->)]; [|reflexivity]. destruct t; [reflexivity|].
    specialize (Ht eq_refl). destruct (1 <? nb) eqn:E; [apply Nat.ltb_lt in E; lia|reflexivity]. }
  rewrite Hnb. cbn [rbind]. eexists. split; [reflexivity|]. cbn. repeat (split; [reflexivity|]).
  unfold format_dtype. cbn. now rewrite Hm, Hw.
Qed.
Lemma no_linefix_meta f bpp : no_linefix f -> linefix_metadata f bpp = Ok (fun _ => None, 0).
Proof.
  intros H. unfold linefix_metadata. cbn [rfold]. unfold linefix_step.
  destruct (H PREFIX) as [-> | ->], (H SUFFIX) as [-> | ->]; reflexivity.
Qed.
Lemma image_named {A} name l m : image_name name ->
  (do l0 <- @Ok (loaded A) l; Ok (if contains $"PREFIX" name then l_prefix A l0
        else if contains $"SUFFIX" name then l_suffix A l0 else Some (l_image A l0))) = Ok (Some m) <-> l_image A l = m.
Proof. intros [H1 H2]. cbn [rbind]. rewrite H1, H2. split; [congruence|intros ->; reflexivity]. Qed.

(** ** C22.  [dec] gives the value of a sample from its bytes. *)
Theorem C22_multiband : forall A (dec : str -> list ascii -> A) from_vax32 b nb t name file mem start dt w,
  BANDS b = Some nb -> nb <> 1 -> BAND_STORAGE_TYPE b = Some t -> no_planes (IFIXES b) -> no_linefix (IFIXES b) ->
  typed (SAMPLE_TYPE b) (SAMPLE_BITS b / 8) true dt w -> image_name name ->
  start + nb * LINES b * LINE_SAMPLES b * w <= List.length file ->
  exists p a, generic_image_properties b = Ok p /\
    read_image A dec from_vax32 name p file mem start = Ok (Some a) /\ shape a = [nb; LINES b; LINE_SAMPLES b] /\
    forall i l s, i < nb -> l < LINES b -> s < LINE_SAMPLES b ->
      at_ a [i; l; s] = sample_value dec from_vax32 (SAMPLE_TYPE b) dt
        (item file start w (position (storage_named t) nb (LINES b) (LINE_SAMPLES b) i l s)).
Proof.
  intros A dec v b nb t name file mem start dt w Hb Hb1 Ht Hnp Hnl Hty Hname Hlen.
  destruct (image_props b nb (Some t) dt w Hnp Hty) with (lf := fun _ : side => @None nat) (k := 0)
    as (p & Hp & Hvax & Hr & Hc & Hnb & Hbst & Hpl & Hpad & Hlf & Hlp & Hfmt); [left; rewrite Hb, Ht; repeat split; discriminate|now apply no_linefix_meta|].
  assert (Hpre : forall x, pre p x = 0) by (intros x; unfold pre; now rewrite Hpl).
  assert (Hsuf : forall x, suf p x = 0) by (intros x; unfold suf; now rewrite Hpl).
  destruct (load_multi dec v p (mkStream (skipn start file) mem) _ _ _ dt w Hr Hc Hnb Hb1 Hlp) as (l & Hl & _ & _ & [Hs Ha] & _).
  { exists LINE. intros; apply Hpad. } { intros x. now rewrite Hpad, Hpre, Hsuf. } { intros x. rewrite Hpl. discriminate. }
  { exact Hfmt. } { now destruct Hty as (_ & _ & m & _ & <- & Hw). }
  { cbn [rest]. rewrite skipn_length, !Hpad, !Nat.add_0_r. lia. }
  exists p, (l_image A l). split; [exact Hp|]. unfold read_image. rewrite Hl. split; [now apply image_named|].
  split; [exact Hs|]. intros i li s Hi Hli Hsa. rewrite Ha by now apply valid3_i.
  unfold axs3. cbn [map add2]. rewrite !Hpre. cbn [Nat.add at3]. rewrite raw_item, !Hpad, !Nat.add_0_r.
  unfold storage_of. rewrite Hbst. now apply conv_value.
Qed.
Print Assumptions C22_multiband.
(** One band, or no BANDS keyword: a two-dimensional image, whatever the storage type. *)
Theorem C22_single_band : forall A (dec : str -> list ascii -> A) from_vax32 b name file mem start dt w,
  BANDS b = Some 1 \/ BANDS b = None -> no_planes (IFIXES b) -> no_linefix (IFIXES b) ->
  typed (SAMPLE_TYPE b) (SAMPLE_BITS b / 8) true dt w -> image_name name ->
  start + LINES b * LINE_SAMPLES b * w <= List.length file ->
  exists p a, generic_image_properties b = Ok p /\
    read_image A dec from_vax32 name p file mem start = Ok (Some a) /\ shape a = [LINES b; LINE_SAMPLES b] /\
    forall l s, l < LINES b -> s < LINE_SAMPLES b ->
      at_ a [l; s] = sample_value dec from_vax32 (SAMPLE_TYPE b) dt (item file start w (l * LINE_SAMPLES b + s)).
Proof.
  intros A dec v b name file mem start dt w Hb Hnp Hnl Hty Hname Hlen.
  destruct (image_props b 1 (match BANDS b with None => None | _ => BAND_STORAGE_TYPE b end) dt w Hnp Hty) with (lf := fun _ : side => @None nat) (k := 0)
    as (p & Hp & Hvax & Hr & Hc & Hnb & Hbst & Hpl & Hpad & Hlf & Hlp & Hfmt).
  { destruct Hb as [-> | ->]; [left|right]; auto. } { now apply no_linefix_meta. }
  assert (Hpre : forall x, pre p x = 0) by (intros x; unfold pre; now rewrite Hpl).
  assert (Hsuf : forall x, suf p x = 0) by (intros x; unfold suf; now rewrite Hpl).
  destruct (load_single dec v p (mkStream (skipn start file) mem) _ _ dt w Hr Hc Hnb Hlp) as (l & Hl & _ & _ & [Hs Ha] & _).
  { exists LINE. intros; apply Hpad. } { apply Hpad. } { intros x. now rewrite Hpad, Hpre, Hsuf. } { intros x _. rewrite Hpl. discriminate. }
  { exact Hfmt. } { now destruct Hty as (_ & _ & m & _ & <- & Hw). }
  { cbn [rest]. rewrite skipn_length, !Hpad, !Nat.add_0_r. lia. }
  exists p, (l_image A l). split; [exact Hp|]. unfold read_image. rewrite Hl. split; [now apply image_named|].
  split; [exact Hs|]. intros li s Hli Hsa. rewrite Ha by now apply valid2_i.
  unfold axs2. cbn [map add2]. rewrite !Hpre. cbn [Nat.add at2]. rewrite raw_item, !Hpad, !Nat.add_0_r.
  now apply conv_value.
Qed.
Print Assumptions C22_single_band.
(** Several bands without a storage order are refused. *)
Theorem C22_no_storage : forall b nb, BANDS b = Some nb -> 1 < nb -> BAND_STORAGE_TYPE b = None ->
  exists e, generic_image_properties b = Err e.
Proof.
  intros b nb Hb Hn Ht. unfold generic_image_properties. destruct (im_sample_type b) as [st|e]; [|now exists e].
  cbn [rbind]. rewrite Hb, Ht. apply Nat.ltb_lt in Hn. rewrite Hn. now exists ValueError.
Qed.
Print Assumptions C22_no_storage.
(** A file that ends before the last sample never yields an image. *)
Theorem C22_short_file : forall A (dec : str -> list ascii -> A) from_vax32 b nb name file mem start dt w p,
  BANDS b = Some nb \/ (BANDS b = None /\ nb = 1) -> no_planes (IFIXES b) -> no_linefix (IFIXES b) ->
  typed (SAMPLE_TYPE b) (SAMPLE_BITS b / 8) true dt w ->
  generic_image_properties b = Ok p ->
  List.length file < start + nb * LINES b * LINE_SAMPLES b * w -> start <= List.length file ->
  read_image A dec from_vax32 name p file mem start = Err ValueError.
Proof.
  intros A dec v b nb name file mem start dt w p0 Hb Hnp Hnl Hty Hp0 Hlen Hst.
  destruct (image_props b nb (match BANDS b with None => None | _ => BAND_STORAGE_TYPE b end) dt w Hnp Hty) with (lf := fun _ : side => @None nat) (k := 0)
    as (p & Hp & Hvax & Hr & Hc & Hnb & Hbst & Hpl & Hpad & Hlf & Hlp & Hfmt).
  { destruct Hb as [E|[E1 E2]]; [|rewrite E1; right; auto]. left. rewrite E. repeat split. intros E2.
    unfold generic_image_properties in Hp0. destruct (im_sample_type b); [|discriminate]. cbn [rbind] in Hp0.
    rewrite E, E2 in Hp0. destruct (1 <? nb) eqn:E3; [discriminate|]. apply Nat.ltb_ge in E3. lia. }
  { now apply no_linefix_meta. }
  rewrite Hp in Hp0. injection Hp0 as <-.
  assert (Hw : 0 < w) by now destruct Hty as (_ & _ & m & _ & <- & Hw).
  unfold read_image, load_pixels, pixel_count. rewrite validity_ok; [|exact Hlp|exists LINE; intros; apply Hpad].
  rewrite Hr, Hc, Hnb. cbn [rbind key]. rewrite !Hpad, Hlp, !Nat.add_0_r.
  set (N := LINES b * LINE_SAMPLES b * nb). set (f := mkStream (skipn start file) mem).
  assert (Hrest : List.length (rest f) < N * w) by (cbn; rewrite skipn_length; subst N; nia).
  assert (Hread : np_from_buffered_io A dec f dt w N = Err ValueError \/
    exists a n, np_from_buffered_io A dec f dt w N = Ok a /\ shape a = [n] /\ n < N).
  { unfold np_from_buffered_io. destruct (in_memory f).
    - rewrite firstn_all2 by lia. destruct (_ =? 0); [|now left]. right. eexists _, _. split; [reflexivity|]. split; [reflexivity|].
      apply Nat.div_lt_upper_bound; lia.
    - right. assert (List.length (rest f) / w < N) by (apply Nat.div_lt_upper_bound; lia).
      rewrite Nat.min_r by lia. eexists _, _. split; [reflexivity|]. split; [reflexivity|].
      rewrite firstn_length. apply Nat.div_lt_upper_bound; [lia|]. pose proof (Nat.le_min_r (List.length (rest f) / w * w) (List.length (rest f))). lia. }
  assert (Hsh : forall a n, shape a = [n] -> shape (convert_if_vax A v a p) = [n]) by (intros a n E; unfold convert_if_vax; destruct (is_vax p); exact E).
  assert (Hre : forall (a : arr A) n sh, shape a = [n] -> n < N -> prod sh = N -> reshape sh a = Err ValueError).
  { intros a n sh E1 E2 E3. unfold reshape, size. rewrite E1, prod1, E3. destruct (N =? n) eqn:E; [apply Nat.eqb_eq in E; lia|reflexivity]. }
  destruct (Nat.eqb_spec nb 1) as [E1|E1].
  - unfold process_single_band_image. rewrite Hfmt. cbn [rbind fst snd].
    destruct Hread as [-> |(a & n & -> & Hs & Hn)]; [reflexivity|]. cbn [rbind].
    unfold extract_single_band_linefix. rewrite Hlp. cbn [Nat.eqb rbind].
    rewrite (Hre _ n _ (Hsh _ _ Hs) Hn); [reflexivity|]. rewrite prod2, !Hpad. subst N. nia.
  - unfold process_multiband_image. rewrite Hfmt. cbn [rbind fst snd].
    destruct Hread as [-> |(a & n & -> & Hs & Hn)]; [reflexivity|]. cbn [rbind]. unfold extract_bil_linefix. rewrite Hlp. cbn [Nat.eqb rbind].
    rewrite !(Hre _ n _ (Hsh _ _ Hs) Hn) by (rewrite prod3, !Hpad; subst N; nia). cbn [rbind].
    repeat match goal with |- context [if ?c then _ else _] => destruct c; try reflexivity end.
Qed.
Print Assumptions C22_short_file.
(** Integer samples of 8, 16, 32 and 64 bits have that many bytes in the file. *)
Lemma integers_typed name bits dt : In bits [8; 16; 32; 64] -> name <> [] ->
  sample_types name (bits / 8) true = Ok dt -> (exists m, numpy_meaning dt = Some m /\ t_size m = bits / 8) -> typed name (bits / 8) true dt (bits / 8).
Proof.
  intros Hb Hn Hs (m & Hm & Hsz). split; [exact Hn|]. split; [exact Hs|]. exists m. split; [exact Hm|]. split; [exact Hsz|].
  cbn [In] in Hb. decompose [or] Hb; subst; try contradiction; cbn; lia.
Qed.
Definition no_fixes : fixes := mkFixes (fun _ _ => None) (fun _ => None) (fun _ => None).
Definition sample_image : image_block :=
  mkImage 16 $"LSB_INTEGER" 2 3 (Some 2) (Some $"LINE_INTERLEAVED") no_fixes.
Example C22_meets : typed (SAMPLE_TYPE sample_image) (SAMPLE_BITS sample_image / 8) true $"<h" 2 /\
  no_planes (IFIXES sample_image) /\ no_linefix (IFIXES sample_image) /\ image_name $"IMAGE" /\
  position (storage_named $"LINE_INTERLEAVED") 2 2 3 1 1 0 = 9.
Proof.
  split; [split; [discriminate|split; [reflexivity|eexists; repeat split; lia]]|]. split; [intros a s; reflexivity|].
  split; [intros s; now left|]. repeat split.
Qed.

(** ** C23.  Each line of a single-band image holds [u] prefix samples, the
    pixels, and [v] suffix samples.  The three arrays hold exactly these, in
    order; an array that would be empty is None. *)
Definition part {A} (o : option (arr A)) (rows n : nat) (f : nat -> nat -> A) : Prop :=
  match o with
  | None => n = 0
  | Some a => 0 < n /\ shape a = [rows; n] /\ forall l i, l < rows -> i < n -> at_ a [l; i] = f l i
  end.
Definition asks_prefix (name : str) : Prop := contains $"PREFIX" name = true.
Definition asks_suffix (name : str) : Prop := contains $"PREFIX" name = false /\ contains $"SUFFIX" name = true.
Theorem C23_single_band : forall A (dec : str -> list ascii -> A) from_vax32 b u v file mem start dt w,
  BANDS b = Some 1 \/ BANDS b = None -> no_planes (IFIXES b) -> 8 <= SAMPLE_BITS b ->
  declares_linefix (IFIXES b) (SAMPLE_BITS b / 8) PREFIX u -> declares_linefix (IFIXES b) (SAMPLE_BITS b / 8) SUFFIX v ->
  typed (SAMPLE_TYPE b) (SAMPLE_BITS b / 8) true dt w ->
  let n := u + LINE_SAMPLES b + v in
  start + LINES b * n * w <= List.length file ->
  exists p image prefix suffix, generic_image_properties b = Ok p /\
    (forall name, image_name name -> read_image A dec from_vax32 name p file mem start = Ok (Some image)) /\
    (forall name, asks_prefix name -> read_image A dec from_vax32 name p file mem start = Ok prefix) /\
    (forall name, asks_suffix name -> read_image A dec from_vax32 name p file mem start = Ok suffix) /\
    shape image = [LINES b; LINE_SAMPLES b] /\
    (forall l s, l < LINES b -> s < LINE_SAMPLES b ->
       at_ image [l; s] = sample_value dec from_vax32 (SAMPLE_TYPE b) dt (item file start w (l * n + (u + s)))) /\
    part prefix (LINES b) u (fun l i => dec dt (item file start w (l * n + i))) /\
    part suffix (LINES b) v (fun l i => dec dt (item file start w (l * n + (u + LINE_SAMPLES b + i)))).
Proof.
  intros A dec va b u v file mem start dt w Hb Hnp Hbits Hu Hv Hty n Hlen.
  assert (Hbpp : 0 < SAMPLE_BITS b / 8) by (apply Nat.div_str_pos; lia).
  destruct (linefix_metadata_ok (IFIXES b) (SAMPLE_BITS b / 8) (fun s => match s with PREFIX => u | SUFFIX => v end) Hbpp) as (lf & Hlm & Hlf').
  { intros []; assumption. }
  destruct (image_props b 1 (match BANDS b with None => None | _ => BAND_STORAGE_TYPE b end) dt w Hnp Hty) with (lf := lf) (k := u + v)
    as (p & Hp & Hvax & Hr & Hc & Hnb & Hbst & Hpl & Hpad & Hlf & Hlp & Hfmt).
  { destruct Hb as [-> | ->]; [left|right]; auto. } { exact Hlm. }
  assert (Hpix : forall s, pix (linefix p s) = match s with PREFIX => u | SUFFIX => v end).
  { intros s. rewrite Hlf, Hlf'. destruct (Nat.eqb_spec (match s with PREFIX => u | SUFFIX => v end) 0) as [E|E]; cbn; congruence. }
  destruct (load_single_linefix dec va p (mkStream (skipn start file) mem) _ _ u v dt w Hr Hc Hnb Hpad Hpl Hlp (Hpix PREFIX) (Hpix SUFFIX) Hfmt)
    as (l & Hl & [Hs Ha] & Hpre & Hsuf).
  { now destruct Hty as (_ & _ & m & _ & <- & Hw). }
  { cbn [rest]. rewrite skipn_length. subst n. replace (LINE_SAMPLES b + (u + v)) with (u + LINE_SAMPLES b + v) by lia. lia. }
  assert (Hpart : forall o k f g, part_is o k (LINES b) f -> (forall i j, f i j = g i j) -> @part A o (LINES b) k g).
  { intros o k f g H E. destruct o as [a|]; [|exact H]. destruct H as (H0 & H1 & H2). split; [exact H0|]. split; [exact H1|].
    intros i j Hi Hj. rewrite H2 by assumption. apply E. }
  exists p, (l_image A l), (l_prefix A l), (l_suffix A l). split; [exact Hp|].
  unfold read_image. rewrite Hl. cbn [rbind].
  split; [intros name [-> ->]; reflexivity|]. split; [intros name H; unfold asks_prefix in H; now rewrite H|].
  split; [intros name [-> ->]; reflexivity|]. split; [exact Hs|]. split; [|split].
  - intros li s Hli Hsa. rewrite Ha by assumption. rewrite raw_item. now apply conv_value.
  - eapply Hpart; [exact Hpre|]. intros i j. apply raw_item.
  - eapply Hpart; [exact Hsuf|]. intros i j. apply raw_item.
Qed.
Print Assumptions C23_single_band.
(** Line-interleaved images: one prefix and suffix per line, before and after
    the samples of all bands, provided the image ends the file. *)
Theorem C23_line_interleaved : forall A (dec : str -> list ascii -> A) from_vax32 b nb u v file mem start dt w,
  BANDS b = Some nb -> 1 < nb -> BAND_STORAGE_TYPE b = Some $"LINE_INTERLEAVED" -> 0 < LINES b ->
  no_planes (IFIXES b) -> 8 <= SAMPLE_BITS b ->
  declares_linefix (IFIXES b) (SAMPLE_BITS b / 8) PREFIX u -> declares_linefix (IFIXES b) (SAMPLE_BITS b / 8) SUFFIX v -> 0 < u + v ->
  typed (SAMPLE_TYPE b) (SAMPLE_BITS b / 8) true dt w ->
  let n := u + nb * LINE_SAMPLES b + v in
  start + LINES b * n * w = List.length file ->
  exists p image prefix suffix, generic_image_properties b = Ok p /\
    (forall name, image_name name -> read_image A dec from_vax32 name p file mem start = Ok (Some image)) /\
    (forall name, asks_prefix name -> read_image A dec from_vax32 name p file mem start = Ok prefix) /\
    (forall name, asks_suffix name -> read_image A dec from_vax32 name p file mem start = Ok suffix) /\
    shape image = [nb; LINES b; LINE_SAMPLES b] /\
    (let value k := sample_value dec from_vax32 (SAMPLE_TYPE b) dt (item file start w k) in
    (forall i l s, i < nb -> l < LINES b -> s < LINE_SAMPLES b ->
       at_ image [i; l; s] = value (l * n + (u + (i * LINE_SAMPLES b + s)))) /\
    part prefix (LINES b) u (fun l i => value (l * n + i)) /\
    part suffix (LINES b) v (fun l i => value (l * n + (u + nb * LINE_SAMPLES b + i)))).
Proof.
  intros A dec va b nb u v file mem start dt w Hb Hb1 Ht Hr0 Hnp Hbits Hu Hv Huv Hty n Hlen.
  assert (Hbpp : 0 < SAMPLE_BITS b / 8) by (apply Nat.div_str_pos; lia).
  destruct (linefix_metadata_ok (IFIXES b) (SAMPLE_BITS b / 8) (fun s => match s with PREFIX => u | SUFFIX => v end) Hbpp) as (lf & Hlm & Hlf').
  { intros []; assumption. }
  destruct (image_props b nb (Some $"LINE_INTERLEAVED") dt w Hnp Hty) with (lf := lf) (k := u + v)
    as (p & Hp & Hvax & Hr & Hc & Hnb & Hbst & Hpl & Hpad & Hlf & Hlp & Hfmt).
  { left. rewrite Hb, Ht. repeat split; discriminate. } { exact Hlm. }
  destruct (load_bil_linefix dec va p (mkStream (skipn start file) mem) _ _ nb u v dt w Hr Hc Hnb Hb1 Hr0 Hbst Hpad Hpl Hlp Huv)
    as (l & Hl & [Hs Ha] & Hpre & Hsuf).
  { rewrite Hlf. apply Hlf'. } { rewrite Hlf. apply Hlf'. } { exact Hfmt. }
  { now destruct Hty as (_ & _ & m & _ & <- & Hw). }
  { cbn [rest]. rewrite skipn_length. subst n. lia. }
  assert (Hpart : forall o k f g, part_is o k (LINES b) f -> (forall i j, f i j = g i j) -> @part A o (LINES b) k g).
  { intros o k f g H E. destruct o as [a|]; [|exact H]. destruct H as (H0 & H1 & H2). split; [exact H0|]. split; [exact H1|].
    intros i j Hi Hj. rewrite H2 by assumption. apply E. }
  exists p, (l_image A l), (l_prefix A l), (l_suffix A l). split; [exact Hp|].
  unfold read_image. rewrite Hl. cbn [rbind].
  split; [intros name [-> ->]; reflexivity|]. split; [intros name H; unfold asks_prefix in H; now rewrite H|].
  split; [intros name [-> ->]; reflexivity|]. split; [exact Hs|]. split; [|split].
  - intros i li s Hi Hli Hsa. rewrite Ha by assumption. rewrite raw_item. now apply conv_value.
  - eapply Hpart; [exact Hpre|]. intros i j. cbv beta. rewrite raw_item. now apply conv_value.
  - eapply Hpart; [exact Hsuf|]. intros i j. cbv beta. rewrite raw_item. now apply conv_value.
Qed.
Print Assumptions C23_line_interleaved.
(** Finding: with other data behind the image, such an image cannot be read. *)
Theorem C23_line_interleaved_not_last_refuted : forall A (dec : str -> list ascii -> A) from_vax32 b nb u v name file mem start dt w,
  BANDS b = Some nb -> 1 < nb -> BAND_STORAGE_TYPE b = Some $"LINE_INTERLEAVED" -> 0 < LINES b ->
  no_planes (IFIXES b) -> 8 <= SAMPLE_BITS b ->
  declares_linefix (IFIXES b) (SAMPLE_BITS b / 8) PREFIX u -> declares_linefix (IFIXES b) (SAMPLE_BITS b / 8) SUFFIX v -> 0 < u + v ->
  typed (SAMPLE_TYPE b) (SAMPLE_BITS b / 8) true dt w ->
  start + LINES b * (u + LINE_SAMPLES b + v) * nb * w <= List.length file ->
  exists p, generic_image_properties b = Ok p /\ read_image A dec from_vax32 name p file mem start = Err ValueError.
Proof.
  intros A dec va b nb u v name file mem start dt w Hb Hb1 Ht Hr0 Hnp Hbits Hu Hv Huv Hty Hlen.
  assert (Hbpp : 0 < SAMPLE_BITS b / 8) by (apply Nat.div_str_pos; lia).
  destruct (linefix_metadata_ok (IFIXES b) (SAMPLE_BITS b / 8) (fun s => match s with PREFIX => u | SUFFIX => v end) Hbpp) as (lf & Hlm & Hlf').
  { intros []; assumption. }
  destruct (image_props b nb (Some $"LINE_INTERLEAVED") dt w Hnp Hty) with (lf := lf) (k := u + v)
    as (p & Hp & Hvax & Hr & Hc & Hnb & Hbst & Hpl & Hpad & Hlf & Hlp & Hfmt).
  { left. rewrite Hb, Ht. repeat split; discriminate. } { exact Hlm. }
  exists p. split; [exact Hp|]. unfold read_image.
  rewrite (load_bil_linefix_fails dec va p (mkStream (skipn start file) mem) _ _ nb u v dt w Hr Hc Hnb Hb1 Hr0 Hbst Hpad Hlp Huv); [reflexivity|..].
  { rewrite Hlf. apply Hlf'. } { rewrite Hlf. apply Hlf'. } { exact Hfmt. }
  { now destruct Hty as (_ & _ & m & _ & <- & Hw). }
  { cbn [rest]. rewrite skipn_length. replace (LINE_SAMPLES b + (u + v)) with (u + LINE_SAMPLES b + v) by lia. lia. }
Qed.
Print Assumptions C23_line_interleaved_not_last_refuted.
(** Prefixes or suffixes that are not whole samples are refused, and so are those
    of other multi-band images. *)
Theorem C23_unaligned : forall b sd k, line_bytes (IFIXES b) sd = Some k -> 0 < k -> k mod (SAMPLE_BITS b / 8) <> 0 ->
  exists e, generic_image_properties b = Err e.
Proof.
  intros b sd k Hk H0 Hm. unfold generic_image_properties. destruct (im_sample_type b) as [st|e]; [|now exists e].
  cbn [rbind]. match goal with |- exists e, rbind ?x _ = _ => destruct x as [nb|e]; [|now exists e] end. cbn [rbind].
  destruct (axplane_metadata _ _ _) as [ap|e]; [|now exists e]. cbn [rbind].
  assert (Hf : exists e, fix_pix k (SAMPLE_BITS b / 8) = Err e).
  { unfold fix_pix. destruct (_ =? 0); [now eexists|]. apply Nat.eqb_neq in Hm. rewrite Hm. now eexists. }
  assert (Hs : forall st, exists e, linefix_step (IFIXES b) (SAMPLE_BITS b / 8) st sd = Err e).
  { intros st'. unfold linefix_step. rewrite Hk. destruct k; [lia|]. destruct Hf as [e ->]. now exists e. }
  unfold linefix_metadata. cbn [rfold]. destruct sd.
  - destruct (Hs (fun _ => None, 0)) as [e ->]. now exists e.
  - destruct (linefix_step _ _ _ PREFIX) as [s1|e]; [|now exists e]. cbn [rbind]. destruct (Hs s1) as [e ->]. now exists e.
Qed.
Print Assumptions C23_unaligned.
Theorem C23_other_storage : forall A (dec : str -> list ascii -> A) from_vax32 b nb t u v name file mem start p,
  BANDS b = Some nb -> 1 < nb -> BAND_STORAGE_TYPE b = Some t -> t <> $"LINE_INTERLEAVED" -> 8 <= SAMPLE_BITS b ->
  declares_linefix (IFIXES b) (SAMPLE_BITS b / 8) PREFIX u -> declares_linefix (IFIXES b) (SAMPLE_BITS b / 8) SUFFIX v -> 0 < u + v ->
  generic_image_properties b = Ok p ->
  read_image A dec from_vax32 name p file mem start = Err NotImplementedError_.
Proof.
  intros A dec va b nb t u v name file mem start p Hb Hb1 Ht Htn Hbits Hu Hv Huv Hp.
  assert (Hbpp : 0 < SAMPLE_BITS b / 8) by (apply Nat.div_str_pos; lia).
  destruct (linefix_metadata_ok (IFIXES b) (SAMPLE_BITS b / 8) (fun s => match s with PREFIX => u | SUFFIX => v end) Hbpp) as (lf & Hlm & Hlf').
  { intros []; assumption. }
  unfold generic_image_properties in Hp. destruct (im_sample_type b); [|discriminate]. cbn [rbind] in Hp.
  rewrite Hb, Ht in Hp. cbn [rbind] in Hp. destruct (axplane_metadata _ _ _) as [ap|]; [|discriminate]. cbn [rbind] in Hp.
  rewrite Hlm in Hp. cbn [rbind fst snd] in Hp. injection Hp as <-.
  unfold read_image, load_pixels, pixel_count, check_fix_validity. cbn [linepad pad bst nbands].
  assert (E : (0 <? u + v) = true) by (apply Nat.ltb_lt; lia). rewrite E. cbn [andb].
  clear E. destruct (0 <? snd ap LINE + snd ap SAMPLE + snd ap BAND); [reflexivity|]. destruct (1 <? List.length _); [reflexivity|].
  apply str_eqb_neq in Htn. rewrite Htn. cbn [negb key rbind]. apply Nat.ltb_lt in Hb1. now rewrite Hb1.
Qed.
Print Assumptions C23_other_storage.
Definition fixed_image : image_block :=
  mkImage 16 $"LSB_INTEGER" 2 3 None None (mkFixes (fun _ _ => None) (fun _ => None) (fun s => match s with PREFIX => Some 4 | SUFFIX => Some 2 end)).
Example C23_meets : typed (SAMPLE_TYPE fixed_image) (SAMPLE_BITS fixed_image / 8) true $"<h" 2 /\
  no_planes (IFIXES fixed_image) /\ declares_linefix (IFIXES fixed_image) (SAMPLE_BITS fixed_image / 8) PREFIX 2 /\
  declares_linefix (IFIXES fixed_image) (SAMPLE_BITS fixed_image / 8) SUFFIX 1.
Proof.
  split; [split; [discriminate|split; [reflexivity|eexists; repeat split; lia]]|]. split; [intros a s; reflexivity|].
  split; right; (split; [lia|reflexivity]).
Qed.

(** ** C24 *)
Lemma three_axes names : Permutation names [$"LINE"; $"SAMPLE"; $"BAND"] ->
  In names [[$"LINE"; $"SAMPLE"; $"BAND"]; [$"LINE"; $"BAND"; $"SAMPLE"]; [$"SAMPLE"; $"LINE"; $"BAND"];
            [$"SAMPLE"; $"BAND"; $"LINE"]; [$"BAND"; $"LINE"; $"SAMPLE"]; [$"BAND"; $"SAMPLE"; $"LINE"]].
Proof.
  intros H. pose proof (Permutation_length H) as Hl. destruct names as [|a [|b [|c [|]]]]; try discriminate. clear Hl.
  assert (Hd : NoDup [a; b; c]). { eapply Permutation_NoDup; [apply Permutation_sym; exact H|]. repeat constructor; cbn; intuition discriminate. }
  assert (Ha : In a [$"LINE"; $"SAMPLE"; $"BAND"]) by (eapply Permutation_in; [exact H|cbn; auto]).
  assert (Hb : In b [$"LINE"; $"SAMPLE"; $"BAND"]) by (eapply Permutation_in; [exact H|cbn; auto]).
  assert (Hc : In c [$"LINE"; $"SAMPLE"; $"BAND"]) by (eapply Permutation_in; [exact H|cbn; auto]).
  clear H. inversion Hd as [|? ? N1 Hd1]; subst. inversion Hd1 as [|? ? N2 _]; subst. clear Hd Hd1.
  cbn [In] in Ha, Hb, Hc.
  destruct Ha as [<-|[<-|[<-|[]]]]; destruct Hb as [<-|[<-|[<-|[]]]]; try (exfalso; apply N1; cbn; auto; fail);
    destruct Hc as [<-|[<-|[<-|[]]]]; try (exfalso; apply N1; cbn; auto; fail); try (exfalso; apply N2; cbn; auto; fail);
    clear; repeat (first [left; reflexivity|right]).
Qed.
Lemma qube_axes names items nl ns nb : Permutation names [$"LINE"; $"SAMPLE"; $"BAND"] ->
  (exists i, nth_error names i = Some $"LINE" /\ nth_error items i = Some nl) ->
  (exists i, nth_error names i = Some $"SAMPLE" /\ nth_error items i = Some ns) ->
  (exists i, nth_error names i = Some $"BAND" /\ nth_error items i = Some nb) ->
  NoDup names /\ assign_axes names items (None, None, None) = Ok (Some nl, Some ns, Some nb).
Proof.
  intros Hp (i & I1 & I2) (j & J1 & J2) (k & K1 & K2). split.
  { eapply Permutation_NoDup; [apply Permutation_sym; exact Hp|]. repeat constructor; cbn; intuition discriminate. }
  apply three_axes in Hp. cbn [In] in Hp.
  destruct Hp as [<-|[<-|[<-|[<-|[<-|[<-|[]]]]]]];
    (destruct i as [|[|[|i]]]; cbn [nth_error] in I1; try discriminate; try (destruct i; discriminate));
    (destruct j as [|[|[|j]]]; cbn [nth_error] in J1; try discriminate; try (destruct j; discriminate));
    (destruct k as [|[|[|k]]]; cbn [nth_error] in K1; try discriminate; try (destruct k; discriminate));
    destruct items as [|x [|y [|z items]]]; cbn [nth_error] in I2, J2, K2; try discriminate;
    injection I2 as ->; injection J2 as ->; injection K2 as ->; reflexivity.
Qed.
Lemma qube_props q names t dt w (n : side -> axis -> nat) nl ns nb :
  AXIS_NAME q = Some names -> Permutation names [$"LINE"; $"SAMPLE"; $"BAND"] -> qube_storage q names t ->
  core_count q names LINE nl -> core_count q names SAMPLE ns -> core_count q names BAND nb ->
  typed (CORE_ITEM_TYPE q) (CORE_ITEM_BYTES q) false dt w -> 0 < CORE_ITEM_BYTES q ->
  no_linefix (QFIXES q) -> (forall sd ax, planes_or_none (QFIXES q) names (CORE_ITEM_BYTES q) sd ax (n sd ax)) ->
  exists p, generic_qube_properties q = Ok p /\ is_vax p = str_eqb (CORE_ITEM_TYPE q) $"VAX_REAL" /\
    nrows p = Some nl /\ ncols p = Some ns /\ nbands p = Some nb /\ storage_of p = t /\
    (forall sd ax, planes p sd ax = match item_bytes (QFIXES q) ax sd with None => None | Some _ => Some (n sd ax) end) /\
    (forall x, pad p x = n PREFIX x + n SUFFIX x) /\ linepad p = 0 /\ format_dtype p = Ok (dt, w).
Proof.
  intros Hax Hperm Hst Hl Hs Hb (Hne & Hdt & m & Hm & Hw & _) Hbpp Hlf Hn.
  destruct (qube_axes names (CORE_ITEMS q) nl ns nb Hperm Hl Hs Hb) as [Hnd Has].
  destruct (axplane_metadata_ok (QFIXES q) names (CORE_ITEM_BYTES q) n Hbpp Hnd Hn) as (pl & pd & Hmd & Hpl & Hpd).
  assert (Hsto : exists s, match QBST q, Some names with
          | Some t, _ => Ok t | None, Some names => storage_of_axes names | None, None => Ok $"ISIS2_QUBE" end = Ok s /\ storage_named s = t).
  { destruct Hst as [(s & -> & Hs')|[-> ->]]; [now exists s|]. destruct t; eexists; split; reflexivity. }
  destruct Hsto as (s & Hs1 & Hs2).
  unfold generic_qube_properties. rewrite Hdt, Hax. cbn [rbind]. rewrite Has. cbn [rbind]. rewrite Hs1. cbn [rbind].
  rewrite Hmd. cbn [rbind]. rewrite (no_linefix_meta _ _ Hlf). cbn [rbind fst snd].
  eexists. split; [reflexivity|]. cbn. repeat (split; [reflexivity|]). split; [exact Hs2|]. split; [exact Hpl|].
  split; [exact Hpd|]. split; [reflexivity|]. unfold format_dtype. cbn. now rewrite Hm, Hw.
Qed.
(** extent of a cube along an axis, replaced along [ax] *)
Definition dims (nb nl ns : nat) (ax : axis) (k : nat) : list nat :=
  match ax with BAND => [k; nl; ns] | LINE => [nb; k; ns] | SAMPLE => [nb; nl; k] end.
Definition along (ax x : axis) (k : nat) : nat := if axis_eqb ax x then k else 0.
(** A qube padded along one axis [ax], with [u] samples before and [v] after its
    core.  The core is returned as (bands, lines, samples); the planes are
    split off, so that core and planes together are the whole qube. *)
Theorem C24_qube : forall A (dec : str -> list ascii -> A) from_vax32 q names t nb nl ns ax u v n name file mem start dt w,
  AXIS_NAME q = Some names -> Permutation names [$"LINE"; $"SAMPLE"; $"BAND"] -> qube_storage q names t ->
  core_count q names LINE nl -> core_count q names SAMPLE ns -> core_count q names BAND nb -> nb <> 1 ->
  typed (CORE_ITEM_TYPE q) (CORE_ITEM_BYTES q) false dt w -> 0 < CORE_ITEM_BYTES q -> no_linefix (QFIXES q) ->
  (forall sd x, planes_or_none (QFIXES q) names (CORE_ITEM_BYTES q) sd x (n sd x)) ->
  (forall x, item_bytes (QFIXES q) x SUFFIX <> None -> 0 < n SUFFIX x) ->
  n PREFIX ax = u -> n SUFFIX ax = v -> (forall x, x <> ax -> n PREFIX x + n SUFFIX x = 0) -> image_name name ->
  let B := nb + along ax BAND (u + v) in let L := nl + along ax LINE (u + v) in let S := ns + along ax SAMPLE (u + v) in
  let value b l s := sample_value dec from_vax32 (CORE_ITEM_TYPE q) dt (item file start w (position t B L S b l s)) in
  let shifted k b l s := value (along ax BAND k + b) (along ax LINE k + l) (along ax SAMPLE k + s) in
  start + B * L * S * w <= List.length file ->
  exists p core l, generic_qube_properties q = Ok p /\
    read_image A dec from_vax32 name p file mem start = Ok (Some core) /\
    shape core = [nb; nl; ns] /\
    (forall b l s, b < nb -> l < nl -> s < ns -> at_ core [b; l; s] = shifted u b l s) /\
    load_pixels A dec from_vax32 p (mkStream (skipn start file) mem) = Ok l /\ l_image A l = core /\
    (0 < u -> exists pl, In (PREFIX, ax, pl) (l_planes A l)) /\ (0 < v -> exists pl, In (SUFFIX, ax, pl) (l_planes A l)) /\
    (forall pl, In (PREFIX, ax, pl) (l_planes A l) -> shape pl = dims nb nl ns ax u /\
       forall b l s, valid (dims nb nl ns ax u) [b; l; s] -> at_ pl [b; l; s] = shifted 0 b l s) /\
    (forall pl, In (SUFFIX, ax, pl) (l_planes A l) -> shape pl = dims nb nl ns ax v /\
       forall b l s, valid (dims nb nl ns ax v) [b; l; s] ->
         at_ pl [b; l; s] = shifted (u + match ax with BAND => nb | LINE => nl | SAMPLE => ns end) b l s).
Proof.
  intros A dec va q names t nb nl ns ax u v n name file mem start dt w Hax Hperm Hst Hl Hs Hb Hb1 Hty Hbpp Hlf Hn Hsufn Hu Hv Hone Hname B L S value shifted Hlen.
  destruct (qube_props q names t dt w n nl ns nb Hax Hperm Hst Hl Hs Hb Hty Hbpp Hlf Hn) as (p & Hp & Hvax & Hr & Hc & Hnb & Hsto & Hpl & Hpad & Hlp & Hfmt).
  assert (Hz : forall sd x, item_bytes (QFIXES q) x sd = None -> n sd x = 0).
  { intros sd x E. destruct (Hn sd x) as [[E0 _]|[(k & cs & i & c & E1 & _)|(k & m & cs & E1 & _)]]; [exact E0|congruence|congruence]. }
  assert (Hpre : forall x, pre p x = n PREFIX x).
  { intros x. unfold pre. rewrite Hpl. destruct (item_bytes (QFIXES q) x PREFIX) eqn:E; [reflexivity|]. now rewrite (Hz _ _ E). }
  assert (Hsuf : forall x, suf p x = n SUFFIX x).
  { intros x. unfold suf. rewrite Hpl. destruct (item_bytes (QFIXES q) x SUFFIX) eqn:E; [reflexivity|]. now rewrite (Hz _ _ E). }
  assert (Hpadx : forall x, pad p x = along ax x (u + v)).
  { intros x. rewrite Hpad. unfold along. destruct (axis_eqb ax x) eqn:E.
    - assert (ax = x) by (destruct ax, x; try discriminate; reflexivity). subst x. lia.
    - assert (x <> ax) by (intros ->; destruct ax; discriminate). now apply Hone. }
  assert (Hprex : forall x, pre p x = along ax x u).
  { intros x. rewrite Hpre. unfold along. destruct (axis_eqb ax x) eqn:E.
    - assert (ax = x) by (destruct ax, x; try discriminate; reflexivity). subst x. lia.
    - assert (x <> ax) by (intros ->; destruct ax; discriminate). specialize (Hone x H). lia. }
  assert (EB : nb + pad p BAND = B) by (now rewrite Hpadx). assert (EL : nl + pad p LINE = L) by (now rewrite Hpadx).
  assert (ES : ns + pad p SAMPLE = S) by (now rewrite Hpadx).
  destruct (load_multi dec va p (mkStream (skipn start file) mem) _ _ _ dt w Hr Hc Hnb Hb1 Hlp) as (l & Hld & _ & _ & [Hsh Ha] & Hplanes).
  { exists ax. intros y Hy. rewrite Hpad. now apply Hone. } { intros x. now rewrite Hpre, Hsuf, Hpad. }
  { intros x. rewrite Hpl. destruct (item_bytes (QFIXES q) x SUFFIX) eqn:E; [|discriminate]. intros E2. injection E2 as E2.
    specialize (Hsufn x). rewrite E in Hsufn. specialize (Hsufn ltac:(discriminate)). lia. }
  { exact Hfmt. } { now destruct Hty as (_ & _ & m & _ & <- & Hw). }
  { cbn [rest]. rewrite skipn_length, EB, EL, ES. nia. }
  rewrite EB, EL, ES in *.
  assert (Hval : forall b l0 s, at3 dec va p (mkStream (skipn start file) mem) dt w B L S [b; l0; s] = value b l0 s).
  { intros b l0 s. cbn [at3]. rewrite raw_item, Hsto. now apply conv_value. }
  destruct (Hplanes ax) as (P1 & P2 & P3 & P4). { intros y Hy. rewrite Hpre, Hsuf. now apply Hone. }
  exists p, (l_image A l), l. split; [exact Hp|]. split; [unfold read_image; rewrite Hld; now apply image_named|].
  split; [exact Hsh|]. split; [|split; [exact Hld|split; [reflexivity|split; [|split; [|split]]]]].
  - intros b li s Hbi Hli Hsi. rewrite Ha by now apply valid3_i. unfold axs3. cbn [map add2]. rewrite Hval, !Hprex. reflexivity.
  - intros H0. apply P1. rewrite Hpl. destruct (item_bytes (QFIXES q) ax PREFIX) eqn:E; [discriminate|]. apply Hz in E. lia.
  - intros H0. apply P2. rewrite Hpl. destruct (item_bytes (QFIXES q) ax SUFFIX) eqn:E; [discriminate|]. apply Hz in E. lia.
  - intros pl Hin. destruct (P3 pl Hin) as [_ [Q1 Q2]].
    assert (Ed : map (set_ax ax (pre p ax) (extent nl ns nb)) axs3 = dims nb nl ns ax u).
    { rewrite Hprex. destruct ax; unfold along; cbn; reflexivity. }
    rewrite Ed in *. split; [exact Q1|]. intros b l0 s Hvd. rewrite Q2 by exact Hvd. unfold axs3. cbn [map add2]. rewrite Hval.
    unfold shifted. destruct ax; unfold along; cbn [axis_eqb]; reflexivity.
  - intros pl Hin. destruct (P4 pl Hin) as [_ [Q1 Q2]].
    assert (Ed : map (set_ax ax (suf p ax) (extent nl ns nb)) axs3 = dims nb nl ns ax v).
    { rewrite Hsuf, Hv. destruct ax; cbn; reflexivity. }
    rewrite Ed in *. split; [exact Q1|]. intros b l0 s Hvd. rewrite Q2 by exact Hvd. unfold axs3. cbn [map add2]. rewrite Hval.
    unfold shifted. destruct ax; rewrite ?Hprex; unfold along, set_ax; cbn [axis_eqb extent]; reflexivity.
Qed.
Print Assumptions C24_qube.
(** One-band qubes give two-dimensional images. *)
Theorem C24_one_band : forall A (dec : str -> list ascii -> A) from_vax32 q names t nl ns ax u v n name file mem start dt w,
  AXIS_NAME q = Some names -> Permutation names [$"LINE"; $"SAMPLE"; $"BAND"] -> qube_storage q names t ->
  core_count q names LINE nl -> core_count q names SAMPLE ns -> core_count q names BAND 1 ->
  typed (CORE_ITEM_TYPE q) (CORE_ITEM_BYTES q) false dt w -> 0 < CORE_ITEM_BYTES q -> no_linefix (QFIXES q) ->
  (forall sd x, planes_or_none (QFIXES q) names (CORE_ITEM_BYTES q) sd x (n sd x)) ->
  (forall x, item_bytes (QFIXES q) x SUFFIX <> None -> 0 < n SUFFIX x) -> ax <> BAND ->
  n PREFIX ax = u -> n SUFFIX ax = v -> (forall x, x <> ax -> n PREFIX x + n SUFFIX x = 0) -> image_name name ->
  let L := nl + along ax LINE (u + v) in let S := ns + along ax SAMPLE (u + v) in
  start + L * S * w <= List.length file ->
  exists p core, generic_qube_properties q = Ok p /\
    read_image A dec from_vax32 name p file mem start = Ok (Some core) /\
    shape core = [nl; ns] /\
    (forall l s, l < nl -> s < ns -> at_ core [l; s] =
       sample_value dec from_vax32 (CORE_ITEM_TYPE q) dt
         (item file start w ((along ax LINE u + l) * S + (along ax SAMPLE u + s)))).
Proof.
  intros A dec va q names t nl ns ax u v n name file mem start dt w Hax Hperm Hst Hl Hs Hb Hty Hbpp Hlf Hn Hsufn Hnb' Hu Hv Hone Hname L S Hlen.
  destruct (qube_props q names t dt w n nl ns 1 Hax Hperm Hst Hl Hs Hb Hty Hbpp Hlf Hn) as (p & Hp & Hvax & Hr & Hc & Hnb & Hsto & Hpl & Hpad & Hlp & Hfmt).
  assert (Hz : forall sd x, item_bytes (QFIXES q) x sd = None -> n sd x = 0).
  { intros sd x E. destruct (Hn sd x) as [[E0 _]|[(k & cs & i & c & E1 & _)|(k & m & cs & E1 & _)]]; [exact E0|congruence|congruence]. }
  assert (Hpre : forall x, pre p x = n PREFIX x).
  { intros x. unfold pre. rewrite Hpl. destruct (item_bytes (QFIXES q) x PREFIX) eqn:E; [reflexivity|]. now rewrite (Hz _ _ E). }
  assert (Hsuf : forall x, suf p x = n SUFFIX x).
  { intros x. unfold suf. rewrite Hpl. destruct (item_bytes (QFIXES q) x SUFFIX) eqn:E; [reflexivity|]. now rewrite (Hz _ _ E). }
  assert (Hpadx : forall x, pad p x = along ax x (u + v)).
  { intros x. rewrite Hpad. unfold along. destruct (axis_eqb ax x) eqn:E.
    - assert (ax = x) by (destruct ax, x; try discriminate; reflexivity). subst x. lia.
    - assert (x <> ax) by (intros ->; destruct ax; discriminate). now apply Hone. }
  assert (Hprex : forall x, pre p x = along ax x u).
  { intros x. rewrite Hpre. unfold along. destruct (axis_eqb ax x) eqn:E.
    - assert (ax = x) by (destruct ax, x; try discriminate; reflexivity). subst x. lia.
    - assert (x <> ax) by (intros ->; destruct ax; discriminate). specialize (Hone x H). lia. }
  assert (EL : nl + pad p LINE = L) by (now rewrite Hpadx). assert (ES : ns + pad p SAMPLE = S) by (now rewrite Hpadx).
  destruct (load_single dec va p (mkStream (skipn start file) mem) _ _ dt w Hr Hc Hnb Hlp) as (l & Hld & _ & _ & [Hsh Ha] & _).
  { exists ax. intros y Hy. rewrite Hpad. now apply Hone. }
  { rewrite Hpadx. unfold along. destruct ax; try reflexivity. congruence. }
  { intros x. now rewrite Hpre, Hsuf, Hpad. }
  { intros x _. rewrite Hpl. destruct (item_bytes (QFIXES q) x SUFFIX) eqn:E; [|discriminate]. intros E2. injection E2 as E2.
    specialize (Hsufn x). rewrite E in Hsufn. specialize (Hsufn ltac:(discriminate)). lia. }
  { exact Hfmt. } { now destruct Hty as (_ & _ & m & _ & <- & Hw). }
  { cbn [rest]. rewrite skipn_length, EL, ES. nia. }
  rewrite ?ES in *.
  exists p, (l_image A l). split; [exact Hp|]. split; [unfold read_image; rewrite Hld; now apply image_named|].
  split; [exact Hsh|]. intros li s Hli Hsi. rewrite Ha by now apply valid2_i. unfold axs2. cbn [map add2 at2].
  rewrite raw_item, !Hprex. now apply conv_value.
Qed.
Print Assumptions C24_one_band.
(** Padding along two axes is refused, never misread. *)
Theorem C24_two_axes : forall A (dec : str -> list ascii -> A) from_vax32 q names n name file mem start p x y,
  AXIS_NAME q = Some names -> Permutation names [$"LINE"; $"SAMPLE"; $"BAND"] -> 0 < CORE_ITEM_BYTES q ->
  (forall sd x, planes_or_none (QFIXES q) names (CORE_ITEM_BYTES q) sd x (n sd x)) ->
  x <> y -> 0 < n PREFIX x + n SUFFIX x -> 0 < n PREFIX y + n SUFFIX y ->
  generic_qube_properties q = Ok p ->
  read_image A dec from_vax32 name p file mem start = Err NotImplementedError_.
Proof.
  intros A dec va q names n name file mem start p x y Hax Hperm Hbpp Hn Hxy Hx Hy Hp.
  assert (Hnd : NoDup names). { eapply Permutation_NoDup; [apply Permutation_sym; exact Hperm|]. repeat constructor; cbn; intuition discriminate. }
  destruct (axplane_metadata_ok (QFIXES q) names (CORE_ITEM_BYTES q) n Hbpp Hnd Hn) as (pl & pd & Hmd & Hpl & Hpd).
  unfold generic_qube_properties in Hp. destruct (sample_types _ _ _); [|discriminate]. cbn [rbind] in Hp.
  rewrite Hax in Hp. destruct (assign_axes _ _ _); [|discriminate]. cbn [rbind] in Hp.
  match type of Hp with rbind ?e _ = _ => destruct e; [|discriminate] end. cbn [rbind] in Hp. rewrite Hmd in Hp. cbn [rbind] in Hp.
  destruct (linefix_metadata _ _) as [lf|]; [|discriminate]. cbn [rbind fst snd] in Hp. injection Hp as <-.
  unfold read_image, load_pixels, pixel_count, check_fix_validity. cbn [linepad pad].
  destruct (_ && _); [reflexivity|].
  assert (E : (1 <? List.length (filter (Nat.ltb 0) [pd LINE; pd SAMPLE; pd BAND])) = true); [|now rewrite E].
  rewrite <- Hpd in Hx, Hy. apply Nat.ltb_lt in Hx, Hy.
  cbn [filter].
  destruct x, y; try congruence; rewrite Hx, Hy; match goal with |- context [if ?c then _ else _] => destruct c end; reflexivity.
Qed.
Print Assumptions C24_two_axes.
(** Finding: a suffix declared with zero items along an axis empties the image. *)
Theorem C24_zero_suffix_refuted : forall A (dec : str -> list ascii -> A) from_vax32 q names t nb nl ns ax n name file mem start dt w,
  AXIS_NAME q = Some names -> Permutation names [$"LINE"; $"SAMPLE"; $"BAND"] -> qube_storage q names t ->
  core_count q names LINE nl -> core_count q names SAMPLE ns -> core_count q names BAND nb -> nb <> 1 ->
  typed (CORE_ITEM_TYPE q) (CORE_ITEM_BYTES q) false dt w -> 0 < CORE_ITEM_BYTES q -> no_linefix (QFIXES q) ->
  (forall sd x, planes_or_none (QFIXES q) names (CORE_ITEM_BYTES q) sd x (n sd x)) ->
  (forall sd x, n sd x = 0) -> item_bytes (QFIXES q) ax SUFFIX <> None -> image_name name ->
  start + nb * nl * ns * w <= List.length file ->
  exists p core, generic_qube_properties q = Ok p /\
    read_image A dec from_vax32 name p file mem start = Ok (Some core) /\ size core = 0.
Proof.
  intros A dec va q names t nb nl ns ax n name file mem start dt w Hax Hperm Hst Hl Hs Hb Hb1 Hty Hbpp Hlf Hn Hz Hsx Hname Hlen.
  destruct (qube_props q names t dt w n nl ns nb Hax Hperm Hst Hl Hs Hb Hty Hbpp Hlf Hn) as (p & Hp & Hvax & Hr & Hc & Hnb & Hsto & Hpl & Hpad & Hlp & Hfmt).
  assert (Hpad0 : forall x, pad p x = 0) by (intros x; rewrite Hpad, !Hz; reflexivity).
  set (p' := mkProps (bpp p) (is_vax p) (styp p) (nrows p) (ncols p) (nbands p) (bst p) (axnames p) (fun _ _ => None) (pad p) (linefix p) (linepad p)).
  destruct (load_multi dec va p' (mkStream (skipn start file) mem) nl ns nb dt w Hr Hc Hnb Hb1 Hlp) as (l & Hld & _ & _ & [Hsh Ha] & _).
  { exists ax. intros; apply Hpad0. } { intros x. cbn. now rewrite Hpad0. } { intros x. cbn. discriminate. }
  { exact Hfmt. } { now destruct Hty as (_ & _ & m & _ & <- & Hw). }
  { cbn [rest]. rewrite skipn_length. unfold p'. cbn [pad]. rewrite !Hpad0, !Nat.add_0_r. nia. }
  clear Ha. exists p. unfold load_pixels in Hld. change (pixel_count p') with (pixel_count p) in Hld.
  cbn [nrows ncols nbands p'] in Hld. unfold read_image, load_pixels.
  destruct (pixel_count p) as [px|]; [|discriminate]. cbn [rbind] in *. rewrite Hr, Hc, Hnb in *. cbn [key rbind] in *.
  assert (E1 : (nb =? 1) = false) by now apply Nat.eqb_neq. rewrite E1 in *.
  unfold process_multiband_image in *. change (format_dtype p') with (format_dtype p) in Hld.
  destruct (format_dtype p) as [dw|]; [|discriminate]. cbn [rbind] in *.
  destruct (np_from_buffered_io A dec _ (fst dw) (snd dw) px) as [a|]; [|discriminate]. cbn [rbind] in *.
  change (convert_if_vax A va a p') with (convert_if_vax A va a p) in Hld.
  cbn [bst p'] in Hld. change (pad p') with (pad p) in Hld.
  change (extract_bil_linefix A (convert_if_vax A va a p) p' nl) with (extract_bil_linefix A (convert_if_vax A va a p) p nl) in Hld.
  match goal with H : rbind ?e _ = Ok l |- _ => destruct e as [[[im pr] su]|]; [|discriminate] end. cbn [rbind] in *.
  rewrite axplanes_none in Hld by reflexivity. injection Hld as <-. cbn [l_image] in Hsh.
  assert (Hfin : exists im2 pls, extract_axplanes A im p = (im2, pls) /\ size im2 = 0).
  { assert (Hcnt : forall sd x, planes p sd x = None \/ planes p sd x = Some 0).
    { intros sd x. rewrite Hpl. destruct (item_bytes (QFIXES q) x sd); [right; f_equal; apply Hz|now left]. }
    assert (Hax' : planes p SUFFIX ax = Some 0) by (rewrite Hpl; destruct (item_bytes _ _ _); [f_equal; apply Hz|congruence]).
    clear - Hcnt Hax' Hsh. unfold extract_axplanes.
    assert (Hgen : forall l st, List.length (shape (fst st)) = 3 -> (size (fst st) = 0 \/ In (SUFFIX, ax) l) ->
       size (fst (fold_left (axplanes_step A p) l st)) = 0).
    { induction l as [|[sd x] l IH]; intros [im1 pls] Hlen Hor; cbn [fold_left fst] in *; [destruct Hor as [H|[]]; exact H|].
      assert (Hcut : List.length (shape (fst (axplanes_step A p (im1, pls) (sd, x)))) = 3 /\
        (size im1 = 0 -> size (fst (axplanes_step A p (im1, pls) (sd, x))) = 0) /\
        (sd = SUFFIX -> x = ax -> size (fst (axplanes_step A p (im1, pls) (sd, x))) = 0)).
      { unfold axplanes_step. cbn [fst] in Hlen. rewrite Hlen. cbn [Nat.eqb].
        destruct (shape im1) as [|d0 [|d1 [|d2 [|]]]] eqn:Esh; try discriminate.
        destruct (planes p sd x) as [cnt|] eqn:Ec.
        - assert (cnt = 0) by (destruct (Hcnt sd x); congruence). subst cnt.
          destruct sd, x; unfold pyslice, slice_ax, s_from, s_to_neg, size; cbn [fst shape]; rewrite Esh; cbn [nth upd List.length Nat.min Nat.eqb];
            rewrite ?Nat.sub_0_r; unfold prod; cbn [fold_right]; repeat split; intros; try discriminate; try assumption; cbn [fst snd] in *; nia.
        - cbn [fst]. rewrite Esh. split; [reflexivity|]. split; [auto|]. intros -> ->. congruence. }
      destruct Hcut as (C1 & C2 & C3). destruct (axplanes_step A p (im1, pls) (sd, x)) as [im2 pls2].
      apply IH; [exact C1|]. destruct Hor as [H|[H|H]]; [left; now apply C2|injection H as -> ->; left; now apply C3|now right]. }
    match goal with |- context [fold_left ?f ?l ?s] => destruct (fold_left f l s) as [im2 pls] eqn:E; specialize (Hgen l s) end.
    exists im2, pls. split; [reflexivity|]. rewrite E in Hgen. apply Hgen; [cbn [fst]; rewrite Hsh; reflexivity|].
    right. destruct ax; cbn; auto 8. }
  destruct Hfin as (im2 & pls & -> & Hsz). cbn [rbind]. destruct Hname as [-> ->]. exists im2. split; [exact Hp|]. split; [reflexivity|exact Hsz].
Qed.
Print Assumptions C24_zero_suffix_refuted.
(** Finding: a qube without AXIS_NAME can never be read. *)
Theorem C24_no_axis_name_refuted : forall A (dec : str -> list ascii -> A) from_vax32 q name file mem start,
  AXIS_NAME q = None -> forall p, generic_qube_properties q = Ok p ->
  exists e, read_image A dec from_vax32 name p file mem start = Err e.
Proof.
  intros A dec va q name file mem start Hax p Hp. unfold generic_qube_properties in Hp. rewrite Hax in Hp.
  destruct (sample_types _ _ _); [|discriminate]. cbn [rbind] in Hp.
  destruct (nth_res _ 2); [|discriminate]. destruct (nth_res _ 0); [|discriminate]. cbn [rbind] in Hp.
  match type of Hp with rbind ?e _ = _ => destruct e; [|discriminate] end. cbn [rbind] in Hp.
  destruct (axplane_metadata _ _ _); [|discriminate]. cbn [rbind] in Hp.
  destruct (linefix_metadata _ _); [|discriminate]. cbn [rbind fst snd] in Hp. injection Hp as <-.
  unfold read_image, load_pixels, pixel_count. destruct (check_fix_validity _) as [[]|e]; [|now exists e]. cbn [rbind key nrows ncols nbands].
  now exists KeyError.
Qed.
Print Assumptions C24_no_axis_name_refuted.
Definition suffix_qube : qube_block :=
  mkQube 2 $"MSB_INTEGER" (Some [$"SAMPLE"; $"BAND"; $"LINE"]) [5; 4; 3] None
    (mkFixes (fun a s => match a, s with SAMPLE, SUFFIX => Some (One 2) | _, _ => None end)
             (fun s => match s with SUFFIX => Some [1; 0; 0] | _ => None end) (fun _ => None)).
Definition suffix_counts (s : side) (a : axis) : nat := match s, a with SUFFIX, SAMPLE => 1 | _, _ => 0 end.
Example C24_meets :
  AXIS_NAME suffix_qube = Some (fastest_first BIL) /\ qube_storage suffix_qube (fastest_first BIL) BIL /\
  core_count suffix_qube (fastest_first BIL) BAND 4 /\ core_count suffix_qube (fastest_first BIL) LINE 3 /\
  core_count suffix_qube (fastest_first BIL) SAMPLE 5 /\
  typed (CORE_ITEM_TYPE suffix_qube) (CORE_ITEM_BYTES suffix_qube) false $">h" 2 /\ no_linefix (QFIXES suffix_qube) /\
  (forall sd x, planes_or_none (QFIXES suffix_qube) (fastest_first BIL) 2 sd x (suffix_counts sd x)) /\
  (forall x, item_bytes (QFIXES suffix_qube) x SUFFIX <> None -> 0 < suffix_counts SUFFIX x).
Proof.
  split; [reflexivity|]. split; [right; split; reflexivity|]. split; [now exists 1|]. split; [now exists 2|]. split; [now exists 0|].
  split; [split; [discriminate|split; [reflexivity|eexists; repeat split; lia]]|]. split; [intros s; now left|]. split.
  - intros [] []; try (left; split; reflexivity). right. left. now exists 2, [1; 0; 0], 0, 1.
  - intros [] H; try (now contradiction H). cbn. lia.
Qed.
