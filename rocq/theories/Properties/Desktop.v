(** Property C71: images in desktop formats. *)
From Verif.Base Require Import Py Val Numpy PyFacts.
From Verif.Model Require Import Data Desktop.
From Verif.Spec Require Import Desktop.
From Verif.Proofs Require Import Pds4Tables Pds4Names Pds4Frame Fits.
From Verif.Properties Require Import FitsKeys.

Lemma seek_number (p : str) i : seek_of (p ++ $"_" ++ str_of_nat i) = Ok i.
Proof.
  unfold seek_of. change (p ++ $"_" ++ str_of_nat i) with (p ++ "_"%char :: str_of_nat i).
  rewrite split_app_sep, (split_on_no _ (str_of_nat i)).
  - rewrite last_last. destruct (str_of_nat i) as [|c s] eqn:E.
    + exfalso. unfold str_of_nat, str_of_N, to_base in E. now apply to_base_fuel_nonempty in E.
    + rewrite <- E. unfold str_of_nat, str_of_N. rewrite parse_to_base by lia. f_equal. apply Nat2N.id.
  - intros H. apply digits_nat_char in H. discriminate H.
Qed.
Lemma handle_shows f i fr : nth_error (i_pixels f) i = Some fr -> is_image fr -> forall o, match o with Some n => n | None => 0 end = i ->
  exists a, handle_compressed_image f o = Ok a /\ shows fr a.
Proof.
  intros E I o <-. unfold handle_compressed_image. rewrite E. cbn [rbind].
  destruct fr as [h w colour palette|p].
  - eexists. split; [reflexivity|]. constructor; [reflexivity|].
    intros y x r g b _ _ P. unfold moveaxis_2_0, convert_rgb. cbn [at_ shape length Nat.eqb].
    rewrite (nth_error_nth _ _ _ P). now repeat split.
  - destruct (shape p) as [|h [|w [|c [|e sh]]]] eqn:S; cbn [is_image] in I; rewrite S in I; cbn [length] in I; try lia; eexists; (split; [reflexivity|]); cbn [length Nat.eqb].
    + apply shows_brightness with h w; [exact S|exact S|reflexivity].
    + unfold moveaxis_2_0. apply shows_channels with h w c; [exact S|cbn [shape]; now rewrite S|reflexivity].
Qed.
Lemma tidy_clean s : tidy s (clean_mptype s).
Proof.
  induction s as [|c s IH]; constructor; [|exact IH].
  destruct (Ascii.eqb_spec c "("%char) as [->|N1]; [left; split; [now left|reflexivity]|].
  destruct (Ascii.eqb_spec c ")"%char) as [->|N2]; [left; split; [right; now left|reflexivity]|].
  destruct (Ascii.eqb_spec c " "%char) as [->|N3]; [left; split; [right; right; now left|reflexivity]|].
  right. split; [|reflexivity]. cbn. intuition congruence.
Qed.
Lemma tidy_fun s t : tidy s t -> t = clean_mptype s.
Proof.
  induction 1 as [|c d s t H _ IH]; [reflexivity|]. cbn [clean_mptype map]. rewrite IH. f_equal.
  destruct H as [[H ->]|[H ->]].
  - cbn in H. destruct H as [<-|[<-|[<-|[]]]]; reflexivity.
  - destruct (Ascii.eqb_spec c "("%char) as [->|]; [destruct H; now left|].
    destruct (Ascii.eqb_spec c ")"%char) as [->|]; [destruct H; right; now left|].
    destruct (Ascii.eqb_spec c " "%char) as [->|]; [destruct H; right; right; now left|]. reflexivity.
Qed.
Lemma n_frames_len f : supported f -> n_frames f = length (i_pixels f).
Proof. intros (_ & _ & [H|[H L]] & _); unfold n_frames; rewrite H; [reflexivity|now rewrite L]. Qed.
Lemma nth_error_map_seq {A} (g : nat -> A) n i : nth_error (map g (seq 0 n)) i = if i <? n then Some (g i) else None.
Proof.
  rewrite nth_error_map. destruct (Nat.ltb_spec i n) as [H|H].
  - now rewrite (nth_error_nth' _ 0) by (now rewrite seq_length); rewrite seq_nth by exact H.
  - now rewrite (proj2 (nth_error_None _ _)) by (now rewrite seq_length).
Qed.

(** *** C71 Opening a supported file lists exactly one key for each frame, in order, and no
    key twice. *)
Theorem C71_index : forall f, supported f -> exists index,
  open_desktop f = Ok (mkState index (fun _ => None) []) /\ length index = length (i_pixels f) /\
  (forall i key, frame_key f i key <-> nth_error index i = Some key) /\ NoDup index.
Proof.
  intros f Hs. pose proof (n_frames_len f Hs) as Hn. destruct Hs as (Hne & Him & _ & Hf).
  assert (Hp : 0 < length (i_pixels f)) by (destruct (i_pixels f); [congruence|cbn; lia]).
  unfold open_desktop, add_compressed_image_objects. rewrite Hn.
  destruct (Nat.eqb_spec (length (i_pixels f)) 1) as [H1|H1].
  { eexists. split; [reflexivity|]. split; [now rewrite H1|]. split.
    - intros i key. split.
      + intros K. inversion K; subst; try lia. reflexivity.
      + destruct i as [|i]; [|now destruct i]. cbn [nth_error]. intros [= <-]. now constructor.
    - constructor; [intros []|constructor]. }
  assert (H2 : 1 < length (i_pixels f)) by lia.
  destruct (str_in (i_format f) [$"GIF"; $"WEBP"]) eqn:G.
  { apply str_in_iff in G.
    assert (G' : i_format f = $"GIF" \/ i_format f = $"WEBP") by (destruct G as [G|[G|[]]]; auto).
    cbn [rbind]. eexists. split; [reflexivity|]. split; [now rewrite map_length, seq_length|]. split.
    - intros i key. rewrite nth_error_map_seq. destruct (Nat.ltb_spec i (length (i_pixels f))) as [L|L]; split.
      + intros K. inversion K; subst; try lia; try reflexivity; exfalso; match goal with H : i_format f = $"MPO" |- _ => rewrite H in G'; destruct G' as [G'|G']; discriminate G' end.
      + intros [= <-]. now apply animation.
      + intros K. inversion K; subst; lia.
      + discriminate.
    - apply FinFun.Injective_map_NoDup; [|apply seq_NoDup]. intros i j E. apply app_inv_head in E. now apply str_of_nat_inj. }
  destruct Hf as [Hf|[Hf|[Hf|(Hm & Hl & Hfst)]]]; [lia| | |].
  { rewrite Hf in G. discriminate. }
  { rewrite Hf in G. discriminate. }
  rewrite Hm. change (str_eqb $"MPO" $"MPO") with true. cbv iota.
  destruct (i_mptypes f) as [|t ts] eqn:M; [cbn in Hl; lia|]. cbn [nth_error] in Hfst. injection Hfst as ->.
  change (str_eqb $"Baseline MP Primary Image" $"Baseline MP Primary Image") with true. cbn [negb rbind length] in *.
  set (g := fun it : nat * str => clean_mptype (snd it) ++ $"_" ++ str_of_nat (fst it + 1)).
  assert (Hts : forall i, nth_error (map g (combine (seq 0 (length ts)) ts)) i = match nth_error ts i with Some t => Some (g (i, t)) | None => None end).
  { intros i. rewrite nth_error_map. destruct (nth_error ts i) as [t|] eqn:E.
    - assert (L : i < length ts) by (apply nth_error_Some; congruence).
      rewrite (nth_error_combine (seq 0 (length ts)) ts i i t); [reflexivity| |exact E].
      rewrite (nth_error_nth' _ 0) by (now rewrite seq_length). now rewrite seq_nth.
    - apply nth_error_None in E. rewrite (proj2 (nth_error_None (combine _ _) i)); [reflexivity|]. rewrite combine_length, seq_length. lia. }
  eexists. split; [reflexivity|]. split; [cbn [length]; rewrite map_length, combine_length, seq_length; lia|]. split.
  - intros i key. destruct i as [|i]; cbn [nth_error].
    + split; [intros K; inversion K; subst; try lia; try reflexivity; exfalso; match goal with H : i_format f = $"GIF" \/ _ |- _ => rewrite Hm in H; destruct H as [H|H]; discriminate H end|].
      intros [= <-]. now apply primary_picture.
    + rewrite Hts. split.
      * intros K. inversion K as [?|? ? H|? ?|? t t' ? ? L E T]; subst; [rewrite Hm in H; destruct H as [H|H]; discriminate H|].
        rewrite M in E. cbn [nth_error] in E. rewrite E. unfold g. cbn [fst snd]. rewrite (tidy_fun _ _ T), Nat.add_1_r. reflexivity.
      * destruct (nth_error ts i) as [t|] eqn:E; [|discriminate]. intros [= <-]. unfold g. cbn [fst snd]. rewrite Nat.add_1_r.
        assert (i < length ts) by (apply nth_error_Some; congruence).
        apply other_picture with t; [exact H2|exact Hm|lia|now rewrite M|apply tidy_clean].
  - constructor.
    + intros Hi. apply in_map_iff in Hi as ((j & t) & E & _). unfold g in E. cbn [fst snd] in E.
      assert (X : In "_"%char $"IMAGE") by (rewrite <- E; apply in_or_app; right; now left). cbn in X. intuition discriminate.
    + apply NoDup_nth_error. intros i j Hi Hj. rewrite map_length, combine_length, seq_length, Nat.min_id in Hi. rewrite !Hts in Hj.
      destruct (nth_error ts i) as [t|] eqn:E; [|apply nth_error_None in E; lia].
      destruct (nth_error ts j) as [t2|]; [|discriminate]. injection Hj as Hj. unfold g in Hj. cbn [fst snd] in Hj.
      apply number_split in Hj as [_ Hj]. lia.
Qed.
Print Assumptions C71_index.
(** Whatever has been loaded before: accessing the key of a frame not loaded yet gives that
    frame, and changes nothing else. *)
Theorem C71_access : forall f i key builtin fuel st, supported f -> frame_key f i key -> key <> $"all" ->
  In key (listed st) -> attr st key = None -> builtin key = None ->
  exists fr a st', nth_error (i_pixels f) i = Some fr /\ shows fr a /\
    access builtin (fun _ => load_desktop f) fuel st key = Some (st', Ok a) /\
    attr st' key = Some a /\ (forall k, k <> key -> attr st' k = attr st k) /\ listed st' = listed st.
Proof.
  intros f i key builtin fuel st Hs K Nall Hin Hn B. pose proof (n_frames_len f Hs) as Hl.
  assert (Hi : i < length (i_pixels f)).
  { destruct Hs as (Hne & _). destruct K; try lia. }
  destruct (nth_error (i_pixels f) i) as [fr|] eqn:E; [|apply nth_error_None in E; lia].
  assert (Him : is_image fr) by (destruct Hs as (_ & Him & _); rewrite Forall_forall in Him; apply Him; now apply nth_error_In in E).
  assert (H : exists a, load_desktop f key = Returned [(key, Some a)] /\ shows fr a).
  { unfold load_desktop. rewrite Hl. destruct K as [L|j L G Lj|L G|j t t' L G Lj _ _].
    - rewrite L. cbn [Nat.eqb]. destruct (handle_shows f 0 fr E Him None eq_refl) as (a & -> & S). now exists a.
    - destruct (Nat.eqb_spec (length (i_pixels f)) 1); [lia|].
      replace (str_eqb (i_format f) $"MPO") with false by (destruct G as [-> | ->]; reflexivity). cbn [andb].
      change ($"FRAME_" ++ str_of_nat j) with ($"FRAME" ++ $"_" ++ str_of_nat j). rewrite seek_number. cbn [rbind].
      destruct (handle_shows f j fr E Him (Some j) eq_refl) as (a & -> & S). now exists a.
    - destruct (Nat.eqb_spec (length (i_pixels f)) 1); [lia|]. rewrite G.
      change (str_eqb $"MPO" $"MPO" && str_eqb $"IMAGE" $"IMAGE") with true. cbv iota. cbn [rbind].
      destruct (handle_shows f 0 fr E Him (Some 0) eq_refl) as (a & -> & S). now exists a.
    - destruct (Nat.eqb_spec (length (i_pixels f)) 1); [lia|]. rewrite G.
      replace (str_eqb (t' ++ $"_" ++ str_of_nat j) $"IMAGE") with false.
      + rewrite andb_false_r, seek_number. cbn [rbind].
        destruct (handle_shows f j fr E Him (Some j) eq_refl) as (a & -> & S). now exists a.
      + symmetry. destruct (str_eqb_spec (t' ++ $"_" ++ str_of_nat j) $"IMAGE") as [X|_]; [|reflexivity].
        assert (Y : In "_"%char $"IMAGE") by (rewrite <- X; apply in_or_app; right; now left). cbn in Y. intuition discriminate. }
  destruct H as (a & H & S). exists fr, a.
  assert (In_ : str_in key (listed st) = true) by now apply str_in_iff.
  assert (R : exists s2, run_loader (fun _ => load_desktop f) st key = (s2, Ok tt) /\ attr s2 key = Some a /\ (forall k, k <> key -> attr s2 k = attr st k) /\ listed s2 = listed st).
  { unfold run_loader. rewrite H. eexists. split; [reflexivity|]. cbn [add_loaded_objects fold_left].
    destruct (add_one (mkState (listed st) (attr st) (key :: calls st)) key a) as (A1 & B1 & _).
    split; [exact A1|]. split; [exact B1|]. unfold add_loaded_object. cbn [fst snd setattr listed]. now rewrite In_. }
  destruct R as (s2 & R & A2 & B2 & L2). exists s2. split; [reflexivity|]. split; [exact S|]. split; [|auto].
  unfold access, lookup. rewrite Hn, B, In_. cbn [negb].
  unfold load. destruct (str_eqb_spec key $"all") as [X|_]; [contradiction|].
  unfold load_one. rewrite In_. cbn [negb]. unfold in_dir, lookup. rewrite Hn, B. cbn [andb]. rewrite R, A2. reflexivity.
Qed.
Print Assumptions C71_access.
Definition a_gif : image_file :=
  mkFile $"GIF" (Some 2) [] [Palette 1 2 (fun _ x => x) [(1, 2, 3); (4, 5, 6)]%Z; Palette 1 2 (fun _ x => 1 - x) [(1, 2, 3); (4, 5, 6)]%Z].
Definition a_mpo : image_file :=
  mkFile $"MPO" (Some 2) [$"Baseline MP Primary Image"; $"Large Thumbnail (VGA Equivalent)"]
    [Pixels (mkArr [4; 6; 3] (fun _ => 7%Z)); Pixels (mkArr [2; 3; 3] (fun idx => Z.of_nat (lin [2; 3; 3] idx)))].
Example C71_meets : supported a_gif /\ supported a_mpo /\
  frame_key a_gif 1 $"FRAME_1" /\ frame_key a_mpo 1 $"Large_Thumbnail__VGA_Equivalent__1" /\
  add_compressed_image_objects a_gif = Ok [$"FRAME_0"; $"FRAME_1"] /\
  add_compressed_image_objects a_mpo = Ok [$"IMAGE"; $"Large_Thumbnail__VGA_Equivalent__1"] /\
  (exists a, load_desktop a_gif $"FRAME_1" = Returned [($"FRAME_1", Some a)] /\ shape a = [3; 1; 2] /\ ravel a = [4; 1; 5; 2; 6; 3]%Z) /\
  (exists a, load_desktop a_mpo $"Large_Thumbnail__VGA_Equivalent__1" = Returned [($"Large_Thumbnail__VGA_Equivalent__1", Some a)] /\
     shape a = [3; 2; 3] /\ at_ a [2; 1; 0] = 11%Z).
Proof.
  split; [|split; [|split; [|split; [|split; [reflexivity|split; [reflexivity|split]]]]]].
  - split; [discriminate|]. split; [repeat constructor|]. split; [now left|]. right. now left.
  - split; [discriminate|]. split; [constructor; [now right|constructor; [now right|constructor]]|]. split; [now left|]. right. right. right. repeat split.
  - apply (animation a_gif 1); [cbn; lia|now left|cbn; lia].
  - apply (other_picture a_mpo 1 $"Large Thumbnail (VGA Equivalent)" $"Large_Thumbnail__VGA_Equivalent_"); [cbn; lia|reflexivity|cbn; lia|reflexivity|].
    apply (tidy_clean $"Large Thumbnail (VGA Equivalent)").
  - eexists. split; [reflexivity|]. split; reflexivity.
  - eexists. split; [reflexivity|]. split; reflexivity.
Qed.
(** Files of several frames in other formats (TIFF, PNG, ...) cannot be opened at all, not
    even their first frame. *)
Theorem C71_other_formats_refuted : forall f, 1 < n_frames f ->
  i_format f <> $"GIF" -> i_format f <> $"WEBP" -> i_format f <> $"MPO" -> open_desktop f = Err NotImplementedError_.
Proof.
  intros f H N1 N2 N3. unfold open_desktop, add_compressed_image_objects.
  destruct (Nat.eqb_spec (n_frames f) 1); [lia|].
  destruct (str_in (i_format f) [$"GIF"; $"WEBP"]) eqn:G; [apply str_in_iff in G; destruct G as [G|[G|[]]]; [now destruct N1|now destruct N2]|].
  destruct (str_eqb_spec (i_format f) $"MPO"); [contradiction|reflexivity].
Qed.
Print Assumptions C71_other_formats_refuted.
Example C71_other_formats_meets : open_desktop (mkFile $"TIFF" (Some 2) [] [Pixels (mkArr [1; 1] (fun _ => 0%Z)); Pixels (mkArr [1; 1] (fun _ => 0%Z))]) = Err NotImplementedError_.
Proof. reflexivity. Qed.
(** Scale and offset of the label are still to be applied to exactly GeoTIFF and JPEG 2000 images. *)
Theorem C71_scaled_later : forall keys format_,
  check_prescaled_desktop keys format_ = false <->
  format_ = $"JPEG2000" \/ exists key a b, In key keys /\ key = a ++ $"GeoKey" ++ b.
Proof.
  intros keys format_. unfold check_prescaled_desktop. destruct (existsb (contains $"GeoKey") keys) eqn:E.
  - split; [|reflexivity]. intros _. right. apply existsb_exists in E as (k & Hk & Hc). apply contains_iff in Hc as (a & b & ->). eauto.
  - rewrite negb_false_iff, str_eqb_eq. split; [auto|]. intros [H|(k & a & b & Hk & H)]; [exact H|].
    assert (X : existsb (contains $"GeoKey") keys = true) by (apply existsb_exists; exists k; split; [exact Hk|apply contains_iff; eauto]). congruence.
Qed.
Print Assumptions C71_scaled_later.
(** A file cut off before one of the frames it announces: accessing the key of that frame is
    an error that reaches the caller, and loads nothing. *)
Theorem C71_cut_off : forall f i builtin fuel st, let key := $"FRAME_" ++ str_of_nat i in
  i_format f = $"GIF" \/ i_format f = $"WEBP" -> 1 < n_frames f -> length (i_pixels f) <= i < n_frames f ->
  In key (listed st) -> attr st key = None -> builtin key = None ->
  exists st', access builtin (fun _ => load_desktop f) fuel st key = Some (st', Err EOFError_) /\
    (forall k, attr st' k = attr st k) /\ listed st' = listed st.
Proof.
  intros f i builtin fuel st key G L Hi Hin Hn B.
  assert (H : load_desktop f key = Escaped EOFError_).
  { unfold load_desktop. destruct (Nat.eqb_spec (n_frames f) 1); [lia|].
    replace (str_eqb (i_format f) $"MPO") with false by (destruct G as [-> | ->]; reflexivity). cbn [andb].
    unfold key. change ($"FRAME_" ++ str_of_nat i) with ($"FRAME" ++ $"_" ++ str_of_nat i). rewrite seek_number. cbn [rbind].
    unfold handle_compressed_image. now rewrite (proj2 (nth_error_None _ _)) by lia. }
  assert (In_ : str_in key (listed st) = true) by now apply str_in_iff.
  exists (mkState (listed st) (attr st) (key :: calls st)). split; [|auto].
  unfold access, lookup. rewrite Hn, B, In_. cbn [negb].
  unfold load. destruct (str_eqb_spec key $"all") as [X|_]; [discriminate X|].
  unfold load_one. rewrite In_. cbn [negb]. unfold in_dir, lookup. rewrite Hn, B. cbn [andb]. unfold run_loader. now rewrite H.
Qed.
Print Assumptions C71_cut_off.
Example C71_cut_off_meets : exists index, add_compressed_image_objects (mkFile $"GIF" (Some 2) [] [Palette 1 1 (fun _ _ => 0) [(1, 2, 3)]%Z]) = Ok index /\ In $"FRAME_1" index.
Proof. eexists. split; [reflexivity|]. cbn. auto. Qed.
