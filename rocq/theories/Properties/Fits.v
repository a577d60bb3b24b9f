(** C68: the parts of FITS files are found where labels say they are. *)
From Verif.Base Require Import Py Val PyFacts.
From Verif.Model Require Import Scaling Pds4Types Pds4Tables Pds4Values Pds4Frame Data Fits.
From Verif.Spec Require Import Fits.
From Verif.Proofs Require Import Scaling Pds4Frame Fits.
Open Scope nat_scope.

Lemma asks_iff name : contains $"HEADER" name = true <-> asks_header name.
Proof. apply contains_iff. Qed.
Lemma header_name_ne (name : str) : name ++ $"_HEADER" <> name.
Proof. intros E. apply (f_equal (@length ascii)) in E. rewrite app_length in E. cbn in E. lia. Qed.
Lemma handle_header hs i h name b : nth_error hs i = Some h -> byte_get (hdu_byte_index hs) b = Some (i, true) ->
  handle_fits_file hs name (AtByte b) = Ok [(name, OHeader (header_says h))].
Proof.
  intros E B. unfold handle_fits_file, locate. rewrite B. cbn [rbind fst snd].
  rewrite (proj2 (Nat.ltb_lt _ _)) by (apply nth_error_Some; congruence). now rewrite (header_value_ok _ _ _ E).
Qed.
Lemma handle_data hs i h name b obj : nth_error hs i = Some h -> byte_get (hdu_byte_index hs) b = Some (i, false) -> data_object (h_data h) obj ->
  handle_fits_file hs name (AtByte b) = Ok [(name ++ $"_HEADER", OHeader (header_says h)); (name, obj)].
Proof.
  intros E B D. unfold handle_fits_file, locate. rewrite B. cbn [rbind fst snd].
  rewrite (proj2 (Nat.ltb_lt _ _)) by (apply nth_error_Some; congruence). rewrite (header_value_ok _ _ _ E). cbn [rbind].
  rewrite (nth_error_nth _ _ no_hdu E), (body_ok _ _ D). cbn [rbind dict_set].
  destruct (str_eqb_spec (name ++ $"_HEADER") name) as [X|_]; [now apply header_name_ne in X|]. reflexivity.
Qed.

(** the first byte of a header is the way to that header, however broken its cards *)
Theorem C68_header : forall hs i h name, fits_file hs -> nth_error hs i = Some h ->
  handle_fits_file hs name (AtByte (header_at hs i)) = Ok [(name, OHeader (header_says h))].
Proof. intros hs i h name F E. apply (handle_header hs i); [exact E|]. now apply (index_header hs i h). Qed.
Print Assumptions C68_header.

(** the first byte of the data of an HDU that has any (or is the last) is the way to these
    data and their header *)
Theorem C68_data : forall hs i h name obj, fits_file hs -> nth_error hs i = Some h ->
  (0 < h_dlen h)%Z \/ S i = length hs -> data_object (h_data h) obj ->
  handle_fits_file hs name (AtByte (data_at hs i))
  = Ok [(name ++ $"_HEADER", OHeader (header_says h)); (name, obj)].
Proof. intros hs i h name obj F E L D. apply (handle_data hs i); [exact E| |exact D]. now apply (index_data hs i h). Qed.
Print Assumptions C68_data.

(** no other byte is the way to anything *)
Theorem C68_nowhere : forall hs name b,
  (forall i, i < length hs -> b <> header_at hs i /\ b <> data_at hs i) ->
  handle_fits_file hs name (AtByte b) = Err KeyError.
Proof.
  intros hs name b N. unfold handle_fits_file, locate. destruct (byte_get (hdu_byte_index hs) b) as [p|] eqn:E; [|reflexivity].
  exfalso. apply index_place in E as (i & L & D). destruct (N i L). destruct D as [[_ ?]|[_ ?]]; contradiction.
Qed.
Print Assumptions C68_nowhere.

(** "Data objects are data": not for an HDU without data that another HDU follows; asking for
    its data gives the header of the next HDU under their name *)
Theorem C68_empty_refuted : forall hs i h h' name, fits_file hs -> nth_error hs i = Some h -> nth_error hs (S i) = Some h' ->
  h_dlen h = 0%Z ->
  handle_fits_file hs name (AtByte (data_at hs i)) = Ok [(name, OHeader (header_says h'))].
Proof.
  intros hs i h h' name F E E' Z. replace (data_at hs i) with (header_at hs (S i)); [now apply C68_header|].
  unfold data_at. rewrite (nth_error_nth _ _ no_hdu E). clear F E' h' name. revert i E.
  induction hs as [|h0 hs IH]; intros [|i] E; try discriminate.
  - injection E as ->. rewrite header_at_S, !header_at_0. lia.
  - rewrite !header_at_S, (IH i E). lia.
Qed.
Print Assumptions C68_empty_refuted.

(** ** PDS3 pointers *)
Lemma part_index hs i header b : fits_file hs -> part_at hs i header b -> byte_get (hdu_byte_index hs) b = Some (i, header).
Proof.
  intros F [L P]. destruct (nth_error hs i) as [h|] eqn:E; [|apply nth_error_None in E; lia].
  destruct header; [subst b; now apply (index_header hs i h)|]. destruct P as [-> P]. rewrite (nth_error_nth _ _ no_hdu E) in P.
  now apply (index_data hs i h).
Qed.
Lemma asks_part name header : (header = true <-> asks_header name) -> contains $"HEADER" name = header.
Proof.
  intros H. destruct header.
  - apply asks_iff. now apply H.
  - apply Bool.not_true_iff_false. intros X. apply asks_iff in X. apply H in X. discriminate.
Qed.
Lemma agnostic_byte hs i header b : fits_file hs -> part_at hs i header b -> agnostic_fits_index header (b + 1) hs = Ok b.
Proof.
  intros F P. unfold agnostic_fits_index, fits_matches. cbn [filter]. replace ((b + 1 - 1) * 1)%Z with b by lia.
  rewrite (part_index _ _ _ _ F P). cbn [snd]. now rewrite Bool.eqb_reflx.
Qed.
(** bytes, counted from 1 *)
Theorem C68_byte_pointer : forall name target filename hs i header b, fits_file hs ->
  (header = true <-> asks_header name) -> part_at hs i header b -> byte_pointer target (b + 1) ->
  get_fits_start_byte name target filename hs = Ok b.
Proof.
  intros name target filename hs i header b F A P (d & T & U & V). unfold get_fits_start_byte.
  rewrite (asks_part _ _ A).
  destruct T as [->|(f & more & ->)]; cbn [nth_error rbind]; rewrite U, V; cbn [rbind];
    rewrite (proj2 (str_eqb_eq _ _) eq_refl); now apply (agnostic_byte hs i).
Qed.
Print Assumptions C68_byte_pointer.

Lemma place_mult hs b p : fits_file hs -> byte_get (hdu_byte_index hs) b = Some p -> (0 <= b /\ b mod 2880 = 0)%Z.
Proof.
  intros F H. apply index_place in H as (i & L & [[_ ->]|[_ ->]]).
  - split; [now apply header_at_nonneg|now apply header_at_mult].
  - split; [|now apply data_at_mult]. unfold data_at. pose proof (header_at_nonneg hs i F).
    unfold fits_file in F. rewrite Forall_forall in F. pose proof (F _ (nth_In hs no_hdu L)) as (? & _). lia.
Qed.
Lemma small_mult n : (0 <= n < 2880)%Z -> (n mod 2880 = 0)%Z -> n = 0%Z.
Proof. intros R M. rewrite Z.mod_small in M by exact R. exact M. Qed.
(** records of 2880 bytes, counted from 1: up to the 2879th, or wherever the number of the
    record is not itself a byte at which a part of the same kind begins *)
Theorem C68_record_pointer : forall name target filename hs i header n, fits_file hs ->
  (header = true <-> asks_header name) -> part_at hs i header ((n - 1) * 2880) -> record_pointer target n ->
  (n < 2880)%Z \/ (forall j, ~ part_at hs j header (n - 1) /\ ~ part_at hs j header n) ->
  get_fits_start_byte name target filename hs = Ok ((n - 1) * 2880)%Z.
Proof.
  intros name target filename hs i header n F A P T C.
  assert (G : agnostic_fits_index header n hs = Ok ((n - 1) * 2880)%Z).
  { pose proof (part_index _ _ _ _ F P) as I. pose proof (place_mult _ _ _ F I) as [N0 _].
    unfold agnostic_fits_index, fits_matches. cbn [filter]. rewrite !Z.mul_1_r.
    destruct (Z.eq_dec n 1) as [->|N1].
    { cbn [Z.sub Z.mul Z.opp Z.add Z.pos_sub] in *. rewrite I. cbn [snd]. now rewrite Bool.eqb_reflx. }
    assert (X : forall b, b = (n - 1)%Z \/ b = n -> match byte_get (hdu_byte_index hs) b with Some p => Bool.eqb (snd p) header | None => false end = false).
    { intros b Hb. destruct (byte_get (hdu_byte_index hs) b) as [p|] eqn:E; [|reflexivity].
      destruct C as [C|C].
      - pose proof (place_mult _ _ _ F E) as [B0 B1]. exfalso. apply (small_mult b) in B1; [lia|]. lia.
      - apply Bool.not_true_iff_false. intros Q. apply Bool.eqb_prop in Q.
        destruct (index_place _ _ _ E) as (j & L & D).
        assert (PA : part_at hs j header b).
        { split; [exact L|]. destruct D as [[-> ->]|[-> ->]]; cbn [snd] in Q; subst header; [reflexivity|]. split; [reflexivity|].
          destruct (Z.lt_ge_cases 0 (h_dlen (nth j hs no_hdu))) as [Y|Y]; [now left|]. right.
          destruct (Nat.eq_dec (S j) (length hs)) as [Z|Z]; [exact Z|]. exfalso.
          destruct (nth_error hs (S j)) as [h'|] eqn:E'; [|apply nth_error_None in E'; lia].
          destruct (nth_error hs j) as [h|] eqn:Ej; [|apply nth_error_None in Ej; lia].
          rewrite (nth_error_nth _ _ no_hdu Ej) in Y.
          assert (D0 : h_dlen h = 0%Z). { unfold fits_file in F. rewrite Forall_forall in F. destruct (F h (nth_error_In _ _ Ej)) as (_ & ? & _). lia. }
          assert (H1 : byte_get (hdu_byte_index hs) (header_at hs (S j)) = Some (S j, true)) by now apply (index_header hs (S j) h').
          assert (H2 : data_at hs j = header_at hs (S j)).
          { clear - Ej D0. unfold data_at. rewrite (nth_error_nth _ _ no_hdu Ej). revert j Ej.
            induction hs as [|h0 hs IH]; intros [|j] E; try discriminate.
            - injection E as ->. rewrite header_at_S, !header_at_0. lia.
            - rewrite !header_at_S, <- (IH j E). lia. }
          rewrite H2, H1 in E. discriminate. }
        destruct (C j) as [C1 C2]. destruct Hb; subst b; contradiction. }
    rewrite !X by auto. rewrite I. cbn [snd]. now rewrite Bool.eqb_reflx. }
  unfold get_fits_start_byte. rewrite (asks_part _ _ A). destruct T as [->|(f & more & ->)]; cbn [nth_error rbind]; exact G.
Qed.
Print Assumptions C68_record_pointer.

(** what a product loads by such pointers *)
Theorem C68_pds3 : forall name target filename hs i h header b obj, fits_file hs -> nth_error hs i = Some h ->
  (header = true <-> asks_header name) -> part_at hs i header b -> pointer_to hs header target b ->
  data_object (h_data h) obj ->
  load_pds3_fits name target filename hs =
  Ok (if header then [(name, OHeader (header_says h))]
      else [(name ++ $"_HEADER", OHeader (header_says h)); (name, obj)]).
Proof.
  intros name target filename hs i h header b obj F E A P T D. unfold load_pds3_fits.
  replace (get_fits_start_byte name target filename hs) with (@Ok Z b).
  - cbn [rbind]. pose proof (part_index _ _ _ _ F P) as I. destruct header; [now apply (handle_header hs i)|now apply (handle_data hs i)].
  - symmetry. destruct T as [T|(n & T & -> & C)]; [now apply (C68_byte_pointer name target filename hs i header)|now apply (C68_record_pointer name target filename hs i header)].
Qed.
Print Assumptions C68_pds3.

(** a pointer that is just the name of the file means its first header ... *)
Theorem C68_file_pointer : forall name s filename hs h more, fits_file hs -> hs = h :: more -> asks_header name ->
  lower s = lower filename -> load_pds3_fits name (PStr s) filename hs = Ok [(name, OHeader (header_says h))].
Proof.
  intros name s filename hs h more F -> A L. unfold load_pds3_fits, get_fits_start_byte. rewrite L, (proj2 (str_eqb_eq _ _) eq_refl). cbn [rbind].
  rewrite (proj2 (asks_iff name) A).
  assert (I : byte_get (hdu_byte_index (h :: more)) 0 = Some (0, true)) by now apply (index_header (h :: more) 0 h).
  assert (M : byte_get (hdu_byte_index (h :: more)) (-1) = None).
  { destruct (byte_get (hdu_byte_index (h :: more)) (-1)) eqn:X; [|reflexivity]. apply (place_mult _ _ _ F) in X. lia. }
  replace (agnostic_fits_index true 0 (h :: more)) with (@Ok Z 0%Z).
  - cbn [rbind]. now apply (handle_header (h :: more) 0).
  - unfold agnostic_fits_index, fits_matches. change ((0 - 1) * 1)%Z with (-1)%Z. change (0 * 1)%Z with 0%Z. cbn [filter]. rewrite M, I. reflexivity.
Qed.
Print Assumptions C68_file_pointer.
(** ... and never its data: ^IMAGE = "FILE.FIT" loads nothing *)
Theorem C68_file_pointer_refuted : forall name s filename hs h more, fits_file hs -> hs = h :: more -> ~ asks_header name ->
  load_pds3_fits name (PStr s) filename hs = Err ValueError.
Proof.
  intros name s filename hs h more F -> A. unfold load_pds3_fits, get_fits_start_byte.
  destruct (str_eqb (lower s) (lower filename)); [|reflexivity]. cbn [rbind].
  replace (contains $"HEADER" name) with false by (symmetry; apply Bool.not_true_iff_false; now rewrite asks_iff).
  assert (I : byte_get (hdu_byte_index (h :: more)) 0 = Some (0, true)) by now apply (index_header (h :: more) 0 h).
  assert (M : forall z, (z < 0)%Z -> byte_get (hdu_byte_index (h :: more)) z = None).
  { intros z Hz. destruct (byte_get (hdu_byte_index (h :: more)) z) eqn:X; [|reflexivity]. apply (place_mult _ _ _ F) in X. lia. }
  unfold agnostic_fits_index, fits_matches. change ((0 - 1) * 1)%Z with (-1)%Z. change (0 * 1)%Z with 0%Z.
  change ((0 - 1) * 2880)%Z with (-2880)%Z. change (0 * 2880)%Z with 0%Z. cbn [filter]. rewrite (M (-1)%Z), (M (-2880)%Z), I by lia. reflexivity.
Qed.
Print Assumptions C68_file_pointer_refuted.
Theorem C68_wrong_file : forall name s filename hs, lower s <> lower filename ->
  load_pds3_fits name (PStr s) filename hs = Err ValueError.
Proof. intros name s filename hs N. unfold load_pds3_fits, get_fits_start_byte. destruct (str_eqb_spec (lower s) (lower filename)); [contradiction|reflexivity]. Qed.
Print Assumptions C68_wrong_file.

(** "A pointer in records leads to that record": not if it spells out its unit *)
Theorem C68_record_unit_refuted : forall name target filename hs d n u, (1 <= n)%Z ->
  target = PDict d \/ (exists f more, target = PTuple (f :: PDict d :: more)) ->
  dict_get d $"units" = Some (PStr u) -> u <> $"BYTES" -> dict_get d $"value" = Some (PInt n) ->
  get_fits_start_byte name target filename hs <> Ok ((n - 1) * 2880)%Z.
Proof.
  intros name target filename hs d n u N T U NB V.
  assert (G : get_fits_start_byte name target filename hs = agnostic_fits_index (contains $"HEADER" name) (n * 2880) hs).
  { unfold get_fits_start_byte. destruct T as [->|(f & more & ->)]; cbn [nth_error rbind]; rewrite U, V; cbn [rbind];
      (destruct (str_eqb_spec u $"BYTES"); [contradiction|reflexivity]). }
  rewrite G. unfold agnostic_fits_index.
  assert (X : forall k t ts, fits_matches (contains $"HEADER" name) (hdu_byte_index hs) (n * 2880) k = t :: ts -> t = ((n * 2880 - 1) * k)%Z \/ t = (n * 2880 * k)%Z).
  { intros k t ts E. assert (I : In t (t :: ts)) by now left. rewrite <- E in I. apply filter_In in I as [[<-|[<-|[]]] _]; auto. }
  destruct (fits_matches _ _ (n * 2880) 1) as [|t ts] eqn:E1.
  - destruct (fits_matches _ _ (n * 2880) 2880) as [|t ts] eqn:E2; [discriminate|]. apply X in E2. intros [= ->]. lia.
  - apply X in E1. intros [= ->]. lia.
Qed.
Print Assumptions C68_record_unit_refuted.

(** "A pointer leads to its record": record 2881 is mistaken for byte 2881 where a
    header begins *)
Definition big_file : list hdu := [mkH $"PRIMARY" [] 2880 0 None; mkH $"A" [Good (mkC $"EXTNAME" (CV (PStr $"A")) [])] 2880 8288640 None; mkH $"B" [Good (mkC $"EXTNAME" (CV (PStr $"B")) [])] 2880 0 None].
Theorem C68_record_number_refuted : fits_file big_file /\ part_at big_file 2 true ((2881 - 1) * 2880) /\
  load_pds3_fits $"B_HEADER" (PTuple [PStr $"F.FIT"; PInt 2881]) $"F.FIT" big_file
  = Ok [($"B_HEADER", OHeader [($"EXTNAME", PStr $"A")])].
Proof.
  split; [repeat constructor; reflexivity || discriminate|]. split; [|vm_compute; reflexivity].
  split; [cbn; lia|]. reflexivity.
Qed.
Print Assumptions C68_record_number_refuted.

(** ** PDS4 *)
Lemma find_header ss b : forall k hd m n, In (k, hd) ss -> p_kind hd = KHeader -> p_length hd = Some n -> (p_offset hd + n)%Z = b -> p_name hd = Some m ->
  (forall k' hd' n', In (k', hd') ss -> p_kind hd' = KHeader -> p_length hd' = Some n' -> (p_offset hd' + n')%Z = b -> p_name hd' = p_name hd) ->
  find_fits_header_pds4_id ss b = Some (object_name m).
Proof.
  induction ss as [|[k0 s] ss IH]; intros k hd m n I K L O M U; [destruct I|]. cbn [find_fits_header_pds4_id].
  assert (R : In (k, hd) ss -> find_fits_header_pds4_id ss b = Some (object_name m)).
  { intros I'. apply (IH k hd m n I' K L O M). intros k' hd' n' J. apply (U k' hd' n'). now right. }
  destruct (p_kind s) eqn:Ks; [destruct (p_length s) as [n0|] eqn:Ls| |].
  - destruct (Z.eqb_spec (p_offset s + n0) b) as [Eb|Nb].
    + rewrite (U k0 s n0 (or_introl eq_refl) Ks Ls Eb), M. reflexivity.
    + destruct I as [[= -> ->]|I]; [|now apply R]. rewrite L in Ls. injection Ls as <-. contradiction.
  - destruct I as [[= -> ->]|I]; [congruence|now apply R].
  - destruct I as [[= -> ->]|I]; [congruence|now apply R].
  - destruct I as [[= -> ->]|I]; [congruence|now apply R].
Qed.
Lemma find_no_header ss b : (forall k hd n, In (k, hd) ss -> p_kind hd = KHeader -> p_length hd = Some n -> (p_offset hd + n)%Z <> b) ->
  find_fits_header_pds4_id ss b = None.
Proof.
  induction ss as [|[k0 s] ss IH]; intros N; [reflexivity|]. cbn [find_fits_header_pds4_id].
  assert (R : find_fits_header_pds4_id ss b = None) by (apply IH; intros k hd n J; apply (N k hd n); now right).
  destruct (p_kind s) eqn:Ks; [destruct (p_length s) as [n0|] eqn:Ls| |]; try exact R.
  destruct (Z.eqb_spec (p_offset s + n0) b) as [Eb|Nb]; [|exact R]. exfalso. exact (N k0 s n0 (or_introl eq_refl) Ks Ls Eb).
Qed.
(** a header object of the label is the header at its offset *)
Theorem C68_pds4_header : forall open_ ss name s hs i h, dict_get ss name = Some s -> p_kind s = KHeader ->
  open_ (p_file s) = hs -> fits_file hs -> nth_error hs i = Some h -> p_offset s = header_at hs i ->
  load_pds4_fits open_ ss name = Ok [(name, OHeader (header_says h))].
Proof.
  intros open_ ss name s hs i h G K O F E P. unfold load_pds4_fits. rewrite G, O, P, (C68_header hs i h name F E), K. reflexivity.
Qed.
Print Assumptions C68_pds4_header.
(** an array or table is the data at its offset; their header comes with it, called by its
    name in the label (if all headers of the label that end here agree on it) or else after
    the object *)
Theorem C68_pds4_data : forall open_ ss name s hs i h obj, dict_get ss name = Some s -> p_kind s <> KHeader ->
  open_ (p_file s) = hs -> fits_file hs -> nth_error hs i = Some h -> part_at hs i false (p_offset s) -> data_object (h_data h) obj ->
  (forall k hd m, In (k, hd) ss -> header_before s hd -> p_name hd = Some m -> object_name m <> name ->
     (forall k' hd' n', In (k', hd') ss -> p_kind hd' = KHeader -> p_length hd' = Some n' -> (p_offset hd' + n')%Z = p_offset s -> p_name hd' = p_name hd) ->
     load_pds4_fits open_ ss name = Ok [(name, obj); (object_name m, OHeader (header_says h))])
  /\ ((forall k hd n, In (k, hd) ss -> p_kind hd = KHeader -> p_length hd = Some n -> (p_offset hd + n)%Z <> p_offset s) ->
     load_pds4_fits open_ ss name = Ok [(name ++ $"_HEADER", OHeader (header_says h)); (name, obj)]).
Proof.
  intros open_ ss name s hs i h obj G K O F E P D.
  assert (H : handle_fits_file (open_ (p_file s)) name (AtByte (p_offset s)) = Ok [(name ++ $"_HEADER", OHeader (header_says h)); (name, obj)]).
  { rewrite O. apply (handle_data hs i); [exact E| |exact D]. now apply part_index. }
  unfold load_pds4_fits. rewrite G, H. cbn [rbind]. split.
  - intros k hd m I (Kh & Fh & n & Ln & On) M Nm U.
    rewrite (find_header ss (p_offset s) k hd m n I Kh Ln On M U).
    assert (X : dict_move [(name ++ $"_HEADER", OHeader (header_says h)); (name, obj)] (name ++ $"_HEADER") (object_name m)
                = Ok [(name, obj); (object_name m, OHeader (header_says h))]).
    { unfold dict_move, dict_get, dict_del. cbn [find fst snd filter]. rewrite (proj2 (str_eqb_eq _ _) eq_refl). cbn [negb snd].
      destruct (str_eqb_spec name (name ++ $"_HEADER")) as [Y|_]; [symmetry in Y; now apply header_name_ne in Y|]. cbn [negb dict_set].
      destruct (str_eqb_spec name (object_name m)) as [Y|_]; [congruence|]. reflexivity. }
    destruct (p_kind s); [contradiction|exact X|exact X].
  - intros N. rewrite (find_no_header ss _ N). destruct (p_kind s); [contradiction|reflexivity|reflexivity].
Qed.
Print Assumptions C68_pds4_data.

(** "A header is kept under the name it is listed by": not if it has a local_identifier, which is
    what the index lists *)
Definition one_image : list hdu := [mkH $"PRIMARY" [Good (mkC $"BITPIX" (CV (PInt 8)) $"bits")] 2880 2880 (Some (FArr [1] [VI 7]))].
Theorem C68_pds4_identifier_refuted : exists ss,
  ss = [($"hdr_0", mkPS KHeader $"a.fits" 0 (Some 2880%Z) (Some $"Primary header")); ($"img", mkPS KArray $"a.fits" 2880 None (Some $"img"))] /\
  load_pds4_fits (fun _ => one_image) ss $"img"
  = Ok [($"img", OArray [1] [VI 7]); ($"Primary_header", OHeader [($"BITPIX", PInt 8); ($"BITPIX_comment", PStr $"bits")])].
Proof. eexists. split; [reflexivity|]. vm_compute. reflexivity. Qed.
Print Assumptions C68_pds4_identifier_refuted.
(** "A header is what its file says": the header of one file replaces an object of another file
    that happens to end at the same byte *)
Theorem C68_pds4_file_refuted : exists ss open_ v,
  dict_get ss $"hdr_b" = Some (mkPS KHeader $"b.fits" 0 (Some 2880%Z) (Some $"hdr b")) /\
  load_pds4_fits open_ ss $"img" = Ok [($"img", OArray [1] [VI 7]); ($"hdr_b", OHeader v)] /\
  load_pds4_fits open_ ss $"hdr_b" <> Ok [($"hdr_b", OHeader v)].
Proof.
  exists [($"hdr_b", mkPS KHeader $"b.fits" 0 (Some 2880%Z) (Some $"hdr b")); ($"img", mkPS KArray $"a.fits" 2880 None (Some $"img"))].
  exists (fun f => if str_eqb f $"a.fits" then one_image else [mkH $"PRIMARY" [] 2880 2880 None]).
  eexists. split; [reflexivity|]. split; [vm_compute; reflexivity|]. vm_compute. discriminate.
Qed.
Print Assumptions C68_pds4_file_refuted.

(** ** Cases that meet the hypotheses *)
Definition sample_hdus : list hdu :=
  [mkH $"PRIMARY" [Good (mkC $"SIMPLE" (CV (PBool true)) $"standard"); Bad (Some (mkC $"OBJECT" (CV (PStr $"Io")) [])); Bad None; Good (mkC [] CUndefined [])] 5760 0 None;
   mkH $"SCI" [Good (mkC $"BITPIX" (CV (PInt 16)) [])] 2880 2880 (Some (FArr [2] [VI 7; VI 8]));
   mkH $"TAB" [Good (mkC $"NOTE" CUndefined [])] 2880 2880
     (Some (FTab true [mkT $"A" [] None (FInts (TNum (DInt true 2)) [(1%Z, false); (2%Z, false)]); mkT $"A" [2] None (FInts (TNum (DInt true 2)) [(3%Z, false); (4%Z, false); (5%Z, false); (6%Z, false)])]))].
Lemma sample_file : fits_file sample_hdus.
Proof. repeat constructor; reflexivity || discriminate. Qed.
Lemma sample_table : legal_table true [mkT $"A" [] None (FInts (TNum (DInt true 2)) [(1%Z, false); (2%Z, false)]); mkT $"A" [2] None (FInts (TNum (DInt true 2)) [(3%Z, false); (4%Z, false); (5%Z, false); (6%Z, false)])].
Proof.
  split; [discriminate|]. split; [|repeat constructor].
  apply (proj1 (has_dup_iff _)). vm_compute. reflexivity.
Qed.
Example C68_meets :
  handle_fits_file sample_hdus $"H" (AtByte 0) = Ok [($"H", OHeader [($"SIMPLE", PBool true); ($"SIMPLE_comment", PStr $"standard"); ($"OBJECT", PStr $"Io")])]
  /\ load_pds3_fits $"TABLE" (PTuple [PStr $"F.FIT"; PInt 6]) $"F.FIT" sample_hdus
     = Ok [($"TABLE_HEADER", OHeader [($"NOTE", PNone)]); ($"TABLE", OFrame [($"A_0", [VI 1; VI 2]); ($"A_1_0", [VI 3; VI 5]); ($"A_1_1", [VI 4; VI 6])])].
Proof.
  split; [exact (C68_header sample_hdus 0 _ $"H" sample_file eq_refl)|].
  refine (C68_pds3 $"TABLE" (PTuple [PStr $"F.FIT"; PInt 6]) $"F.FIT" sample_hdus 2 _ false 14400 _ sample_file eq_refl _ _ _ (table_data true _ sample_table)).
  - split; [discriminate|]. intros H. apply asks_iff in H. vm_compute in H. discriminate.
  - split; [cbn; lia|]. split; [reflexivity|]. now left.
  - right. exists 6%Z. split; [right; now exists (PStr $"F.FIT"), []|]. split; [reflexivity|]. left. lia.
Qed.
Example C68_pds4_meets : let ss := [($"hdr_0", mkPS KHeader $"a.fits" 0 (Some 2880%Z) (Some $"Primary header")); ($"img", mkPS KArray $"a.fits" 2880 None (Some $"img"))] in
  load_pds4_fits (fun _ => one_image) ss $"img" = Ok [($"img", OArray [1] [VI 7]); ($"Primary_header", OHeader (header_says (nth 0 one_image no_hdu)))].
Proof.
  intros ss.
  refine (proj1 (C68_pds4_data (fun _ => one_image) ss $"img" (mkPS KArray $"a.fits" 2880 None (Some $"img")) one_image 0 _ (OArray [1] [VI 7]) eq_refl _ eq_refl _ eq_refl _ (array_data [1] [VI 7]))
    $"hdr_0" _ $"Primary header" (or_introl eq_refl) _ eq_refl _ _).
  - discriminate.
  - repeat constructor; reflexivity || discriminate.
  - split; [cbn; lia|]. split; [reflexivity|]. now left.
  - split; [reflexivity|]. split; [reflexivity|]. exists 2880%Z. split; reflexivity.
  - intros X. vm_compute in X. discriminate.
  - intros k hd n [[= <- <-]|[[= <- <-]|[]]] K L O; [reflexivity|discriminate].
Qed.
