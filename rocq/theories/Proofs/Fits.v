(** Lemmas about Model/Fits.v. *)
From Coq Require Import Permutation.
From Verif.Base Require Import Py Val PyFacts.
From Verif.Model Require Import Scaling Pds4Types Pds4Tables Pds4Values Pds4Frame Data Fits.
From Verif.Spec Require Import Fits.
From Verif.Proofs Require Import Pds4Names Pds4Heads Pds4Frame.
Open Scope nat_scope.

(** ** Headers *)
Lemma card_entries_said c : card_entries c = said c.
Proof. unfold card_entries, said. destruct (c_key c) as [|k ks]; [reflexivity|]. cbn [length Nat.eqb]. destruct (c_com c); reflexivity. Qed.
Lemma header_skip cs : handle_fits_header true cs = Ok (flat_map (fun c => match c with Good c => said c | Bad _ => [] end) cs).
Proof.
  induction cs as [|[c|o] cs IH]; cbn [handle_fits_header flat_map]; [reflexivity| |exact IH].
  rewrite IH. cbn [rbind]. now rewrite card_entries_said.
Qed.
Lemma header_strict cs : handle_fits_header false cs =
  if existsb is_bad cs then Err VerifyError else Ok (flat_map (fun c => match c with Good c => said c | Bad _ => [] end) cs).
Proof.
  induction cs as [|[c|o] cs IH]; cbn [handle_fits_header flat_map existsb is_bad orb]; [reflexivity| |reflexivity].
  rewrite IH. destruct (existsb is_bad cs); cbn [rbind]; [reflexivity|]. now rewrite card_entries_said.
Qed.
Lemma flat_map_map {A B C} (f : B -> list C) (g : A -> B) l : flat_map f (map g l) = flat_map (fun x => f (g x)) l.
Proof. induction l; cbn; congruence. Qed.
Lemma fixed_says cs : flat_map (fun c => match c with Good c => said c | Bad _ => [] end) (map silentfix cs)
  = flat_map (fun c => match legible c with Some c => said c | None => [] end) cs.
Proof. rewrite flat_map_map. apply flat_map_ext. now intros [c|[c|]]. Qed.
Lemma good_says cs : existsb is_bad cs = false ->
  flat_map (fun c => match c with Good c => said c | Bad _ => [] end) cs
  = flat_map (fun c => match legible c with Some c => said c | None => [] end) cs.
Proof.
  induction cs as [|[c|o] cs IH]; cbn [existsb is_bad orb flat_map legible]; intros H; [reflexivity| |discriminate].
  now rewrite IH.
Qed.
Lemma header_value_ok hs i h : nth_error hs i = Some h -> header_value hs i = Ok (header_says h).
Proof.
  intros E. unfold header_value, header_says, cards_of. rewrite (nth_error_nth _ _ no_hdu E).
  rewrite header_strict. destruct (existsb is_bad (h_cards h)) eqn:B.
  2: { now rewrite good_says. }
  unfold verify. cbv zeta beta iota.
  set (g := fun h : hdu => mkH (h_name h) (map silentfix (h_cards h)) (h_hlen h) (h_dlen h) (h_data h)).
  assert (N : nth i (map g hs) no_hdu = g h).
  { apply nth_error_nth. now rewrite nth_error_map, E. }
  rewrite N. cbn [g h_cards]. rewrite header_strict, header_skip, fixed_says.
  destruct (existsb (fun h0 => existsb is_bad (h_cards h0)) (map g hs)) eqn:X; [reflexivity|].
  replace (existsb is_bad (map silentfix (h_cards h))) with false; [reflexivity|].
  symmetry. rewrite <- Bool.not_true_iff_false in X |- *. intros Y. apply X. apply existsb_exists. exists (g h). split; [|exact Y].
  apply in_map. eapply nth_error_In; eauto.
Qed.
Lemma header_clean h : clean h -> handle_fits_header false (h_cards h) = Ok (header_says h).
Proof.
  intros C. rewrite header_strict.
  replace (existsb is_bad (h_cards h)) with false.
  - unfold header_says. rewrite good_says; [reflexivity|].
    apply Bool.not_true_iff_false. intros X. apply existsb_exists in X as (c & I & B).
    unfold clean in C. rewrite Forall_forall in C. destruct (C c I) as (t & ->). discriminate.
  - symmetry. apply Bool.not_true_iff_false. intros X. apply existsb_exists in X as (c & I & B).
    unfold clean in C. rewrite Forall_forall in C. destruct (C c I) as (t & ->). discriminate.
Qed.
Lemma header_dirty h : ~ clean h -> handle_fits_header false (h_cards h) = Err VerifyError.
Proof.
  intros C. rewrite header_strict. destruct (existsb is_bad (h_cards h)) eqn:B; [reflexivity|]. exfalso. apply C.
  apply Forall_forall. intros [t|o] I; [eauto|]. exfalso.
  assert (existsb is_bad (h_cards h) = true) by (apply existsb_exists; exists (Bad o); auto). congruence.
Qed.

(** ** Places *)
Lemma byte_get_last l1 e l2 : Forall (fun x : Z * part => fst x <> fst e) l2 ->
  byte_get (rev (l1 ++ e :: l2)) (fst e) = Some (snd e).
Proof.
  intros F. unfold byte_get. rewrite rev_app_distr. cbn [rev]. rewrite <- app_assoc. cbn [app].
  assert (N : find (fun x : Z * part => Z.eqb (fst x) (fst e)) (rev l2 ++ e :: rev l1) = Some e).
  { assert (F' : Forall (fun x : Z * part => fst x <> fst e) (rev l2)).
    { apply Forall_forall. intros x I. apply in_rev in I. rewrite Forall_forall in F. now apply F. }
    induction (rev l2) as [|x l IH]; cbn [app find].
    - now rewrite Z.eqb_refl.
    - inversion F' as [|? ? H H']; subst. destruct (Z.eqb_spec (fst x) (fst e)); [contradiction|]. now apply IH. }
  now rewrite N.
Qed.
Lemma header_at_0 hs : header_at hs 0 = 0%Z. Proof. reflexivity. Qed.
Lemma header_at_S h hs i : header_at (h :: hs) (S i) = (h_hlen h + h_dlen h + header_at hs i)%Z. Proof. reflexivity. Qed.
Lemma byte_entries_split hs : forall i h k p, nth_error hs i = Some h ->
  exists l1 l2, byte_entries k p hs = l1 ++ ((p + header_at hs i)%Z, (k + i, true)) :: ((p + header_at hs i + h_hlen h)%Z, (k + i, false))
     :: byte_entries (k + S i) (p + header_at hs i + h_hlen h + h_dlen h)%Z l2 /\ l2 = skipn (S i) hs.
Proof.
  induction hs as [|h0 hs IH]; intros [|i] h k p E; try discriminate.
  - injection E as <-. exists [], hs. cbn [byte_entries app skipn]. rewrite header_at_0, Z.add_0_r, Nat.add_0_r.
    replace (k + 1) with (S k) by lia. auto.
  - cbn [nth_error] in E. destruct (IH i h (S k) (p + h_hlen h0 + h_dlen h0)%Z E) as (l1 & l2 & H & L).
    exists ((p, (k, true)) :: (p + h_hlen h0, (k, false))%Z :: l1), l2. split; [|exact L].
    cbn [byte_entries app]. rewrite H, header_at_S.
    replace (k + S i) with (S k + i) by lia. replace (k + S (S i)) with (S k + S i) by lia.
    replace (p + (h_hlen h0 + h_dlen h0 + header_at hs i))%Z with (p + h_hlen h0 + h_dlen h0 + header_at hs i)%Z by lia. reflexivity.
Qed.
Lemma byte_entries_above hs : forall k p, fits_file hs -> Forall (fun e : Z * part => (p <= fst e)%Z) (byte_entries k p hs).
Proof.
  induction hs as [|h hs IH]; intros k p F; cbn [byte_entries]; [constructor|].
  inversion F as [|? ? (A & B & _) F']; subst. repeat constructor; cbn [fst]; try lia.
  eapply Forall_impl; [|apply IH; exact F']. cbn. intros. lia.
Qed.
Lemma fits_skip n hs : fits_file hs -> fits_file (skipn n hs).
Proof. unfold fits_file. intros F. apply Forall_forall. intros x I. rewrite Forall_forall in F. apply F. rewrite <- (firstn_skipn n hs). apply in_or_app. auto. Qed.
Lemma index_header hs i h : fits_file hs -> nth_error hs i = Some h ->
  byte_get (hdu_byte_index hs) (header_at hs i) = Some (i, true).
Proof.
  intros F E. unfold hdu_byte_index. destruct (byte_entries_split hs i h 0 0 E) as (l1 & l2 & -> & ->).
  assert (W : (0 < h_hlen h /\ 0 <= h_dlen h)%Z).
  { unfold fits_file in F. rewrite Forall_forall in F. destruct (F h (nth_error_In _ _ E)) as (? & ? & _). lia. }
  rewrite Z.add_0_l, Nat.add_0_l.
  apply (byte_get_last l1 (header_at hs i, (i, true))).
  constructor; [cbn [fst]; lia|].
  eapply Forall_impl; [|apply byte_entries_above, fits_skip, F]. cbn [fst]. intros. lia.
Qed.
Lemma index_data hs i h : fits_file hs -> nth_error hs i = Some h -> (0 < h_dlen h)%Z \/ S i = length hs ->
  byte_get (hdu_byte_index hs) (data_at hs i) = Some (i, false).
Proof.
  intros F E D. unfold data_at. rewrite (nth_error_nth _ _ no_hdu E).
  unfold hdu_byte_index. destruct (byte_entries_split hs i h 0 0 E) as (l1 & l2 & -> & ->).
  rewrite Z.add_0_l, Nat.add_0_l.
  change (?a :: ?b :: ?c) with ([a] ++ b :: c). rewrite app_assoc.
  apply (byte_get_last (l1 ++ [_]) ((header_at hs i + h_hlen h)%Z, (i, false))).
  destruct D as [D|D].
  - eapply Forall_impl; [|apply byte_entries_above, fits_skip, F]. cbn [fst]. intros. lia.
  - rewrite skipn_all2 by lia. constructor.
Qed.
(** every entry of the index is a place *)
Lemma byte_entries_in hs : forall k p e, In e (byte_entries k p hs) ->
  exists i h, nth_error hs i = Some h /\ (e = ((p + header_at hs i)%Z, (k + i, true)) \/ e = ((p + data_at hs i)%Z, (k + i, false))).
Proof.
  induction hs as [|h hs IH]; intros k p e I; cbn [byte_entries] in I; [destruct I|].
  destruct I as [<-|[<-|I]].
  - exists 0, h. split; [reflexivity|]. left. now rewrite header_at_0, Z.add_0_r, Nat.add_0_r.
  - exists 0, h. split; [reflexivity|]. right. unfold data_at. cbn [nth]. rewrite header_at_0, Nat.add_0_r. f_equal.
  - destruct (IH _ _ _ I) as (i & g & E & [->| ->]); exists (S i), g; (split; [exact E|]).
    + left. rewrite header_at_S. replace (k + S i) with (S k + i) by lia.
      replace (p + (h_hlen h + h_dlen h + header_at hs i))%Z with (p + h_hlen h + h_dlen h + header_at hs i)%Z by lia. reflexivity.
    + right. unfold data_at. rewrite header_at_S. cbn [nth]. replace (k + S i) with (S k + i) by lia.
      replace (p + (h_hlen h + h_dlen h + header_at hs i + h_hlen (nth i hs no_hdu)))%Z with (p + h_hlen h + h_dlen h + (header_at hs i + h_hlen (nth i hs no_hdu)))%Z by lia. reflexivity.
Qed.
Lemma byte_get_in idx b p : byte_get idx b = Some p -> In (b, p) idx.
Proof.
  unfold byte_get. destruct (find _ idx) as [e|] eqn:E; [|discriminate]. intros [= <-].
  apply find_some in E as (I & B). apply Z.eqb_eq in B. subst b. now destruct e.
Qed.
Lemma index_place hs b p : byte_get (hdu_byte_index hs) b = Some p ->
  exists i, i < length hs /\ ((p = (i, true) /\ b = header_at hs i) \/ (p = (i, false) /\ b = data_at hs i)).
Proof.
  intros H. apply byte_get_in in H. unfold hdu_byte_index in H. rewrite <- in_rev in H.
  destruct (byte_entries_in _ _ _ _ H) as (i & h & E & D). exists i.
  split; [apply nth_error_Some; congruence|]. rewrite Nat.add_0_l, Z.add_0_l in D.
  destruct D as [[= -> ->]|[= -> ->]]; auto.
Qed.
Lemma header_at_mult hs i : fits_file hs -> (header_at hs i mod 2880 = 0)%Z.
Proof.
  revert i. induction hs as [|h hs IH]; intros [|i] F; try reflexivity.
  inversion F as [|? ? (A & B & M & N) F']; subst. rewrite header_at_S.
  rewrite <- Zplus_mod_idemp_l, <- (Zplus_mod_idemp_l (h_hlen h)), M. cbn [Z.add]. rewrite N. cbn [Z.add]. now apply IH.
Qed.
Lemma data_at_mult hs i : fits_file hs -> i < length hs -> (data_at hs i mod 2880 = 0)%Z.
Proof.
  intros F L. unfold data_at. rewrite <- Zplus_mod_idemp_l, header_at_mult by exact F. cbn [Z.add].
  unfold fits_file in F. rewrite Forall_forall in F. now apply F, nth_In.
Qed.
Lemma header_at_nonneg hs i : fits_file hs -> (0 <= header_at hs i)%Z.
Proof.
  revert i. induction hs as [|h hs IH]; intros [|i] F; try (cbn; lia).
  inversion F as [|? ? (A & B & M & N) F']; subst. rewrite header_at_S. specialize (IH i F'). lia.
Qed.

(** ** Tables *)
Lemma plain_unmasked (buffer : list tfield) : Forall (fun f => t_shape f = [] /\ unmasked f) buffer ->
  plain_df buffer = flat_map field_columns buffer.
Proof.
  intros F. assert (G : map (fun f => (t_name f, raw (t_vals f))) buffer = flat_map field_columns buffer).
  { induction F as [|f fs (E & _) _ IH]; [reflexivity|]. cbn [map flat_map]. unfold field_columns at 1. now rewrite E, IH. }
  rewrite <- G. destruct buffer as [|f [|g fs]]; try reflexivity.
  inversion F as [|? ? (_ & U) _]; subst. unfold plain_df. cbn [map]. unfold sanitized. now rewrite U.
Qed.
Lemma combine_seq_map {A} (g : nat -> A) n : combine (seq 0 n) (map g (seq 0 n)) = map (fun j => (j, g j)) (seq 0 n).
Proof. generalize 0. induction n as [|n IH]; intros s; cbn; [reflexivity|]. now rewrite IH. Qed.
Lemma group_unmasked f : unmasked f -> t_shape f <> [] -> length (t_shape f) <= 2 -> group_df f = Ok (field_columns f).
Proof.
  intros U N L. unfold group_df. destruct (Nat.ltb_spec 2 (length (t_shape f))); [lia|]. f_equal.
  unfold sanitized. rewrite U. unfold enum, columns_of. rewrite map_length, seq_length, combine_seq_map, map_map.
  unfold field_columns. destruct (t_shape f); [contradiction|]. reflexivity.
Qed.
Lemma frame_pieces_ok fs : forall buffer, Forall (fun f => unmasked f /\ length (t_shape f) <= 2) fs ->
  Forall (fun f => t_shape f = [] /\ unmasked f) buffer ->
  exists ps, frame_pieces buffer fs = Ok ps /\ concat ps = flat_map field_columns (buffer ++ fs)
             /\ (buffer ++ fs <> [] -> ps <> []).
Proof.
  induction fs as [|f fs IH]; intros buffer F B; cbn [frame_pieces].
  - rewrite app_nil_r. destruct buffer as [|b bs]; [exists []; repeat split; auto|].
    exists [plain_df (b :: bs)]. repeat split; [|discriminate]. cbn [concat]. now rewrite app_nil_r, plain_unmasked.
  - inversion F as [|? ? (U & L) F']; subst. destruct (t_shape f) as [|n s] eqn:E.
    + destruct (IH (buffer ++ [f]) F') as (ps & H & C & N).
      { apply Forall_app. split; [exact B|]. repeat constructor; auto. }
      rewrite <- app_assoc in C, N. eauto.
    + rewrite group_unmasked by (rewrite ?E; auto; discriminate). cbn [rbind].
      destruct (IH [] F' (Forall_nil _)) as (ps & H & C & _). rewrite H. cbn [rbind].
      eexists. split; [reflexivity|]. split; [|destruct buffer; discriminate].
      rewrite concat_app. cbn [concat app] in *. rewrite C, flat_map_app. cbn [flat_map]. f_equal.
      destruct buffer as [|b bs]; [reflexivity|]. cbn [concat]. now rewrite app_nil_r, plain_unmasked.
Qed.
Lemma structured_ok fs : fs <> [] -> Forall (fun f => unmasked f /\ length (t_shape f) <= 2) fs ->
  structured_array_to_df fs = Ok (flat_map field_columns fs).
Proof.
  intros N F. unfold structured_array_to_df. destruct (frame_pieces_ok fs [] F (Forall_nil _)) as (ps & -> & C & M).
  cbn [rbind]. destruct ps; [now specialize (M N)|]. now rewrite C.
Qed.
(** ** Numbers for equal names *)
Lemma number_split (a b : str) i j : a ++ $"_" ++ str_of_nat i = b ++ $"_" ++ str_of_nat j -> a = b /\ i = j.
Proof.
  intros E. assert (X : forall (s t u v : str), ~ In "_"%char t -> ~ In "_"%char v -> s ++ "_"%char :: t = u ++ "_"%char :: v -> s = u /\ t = v).
  { clear. induction s as [|c s IH]; intros t u v Nt Nv E; destruct u as [|d u]; cbn [app] in E.
    - now injection E.
    - injection E as <- E. destruct Nt. rewrite E. apply in_or_app. right. now left.
    - injection E as -> E. destruct Nv. rewrite <- E. apply in_or_app. right. now left.
    - injection E as -> E. destruct (IH t u v Nt Nv E) as [-> ->]. auto. }
  assert (N : forall k, ~ In "_"%char (str_of_nat k)) by (intros k H; apply digits_nat_char in H; discriminate H).
  destruct (X _ _ _ _ (N i) (N j) E) as [-> Y]. split; [reflexivity|]. now apply str_of_nat_inj.
Qed.
Lemma count_pos (n : str) l : In n l -> 1 <= length (filter (str_eqb n) l).
Proof.
  intros I. destruct (filter (str_eqb n) l) as [|x r] eqn:E; [|cbn; lia].
  assert (J : In n (filter (str_eqb n) l)) by (apply filter_In; split; [exact I|]; apply (proj2 (str_eqb_eq _ _) eq_refl)).
  rewrite E in J. destruct J.
Qed.
Lemma count_firstn (n : str) l i : i <= length l ->
  length (filter (str_eqb n) (firstn i l)) = length (filter (fun j => str_eqb n (nth j l [])) (seq 0 i)).
Proof.
  revert i. induction l as [|x l IH]; intros [|i] L; cbn [length] in L; try reflexivity; [lia|].
  cbn [firstn filter seq nth]. rewrite <- seq_shift.
  assert (S : forall (p : nat -> bool) q, length (filter p (map S q)) = length (filter (fun j => p (S j)) q)).
  { intros p q. induction q as [|y q IHq]; cbn [map filter]; [reflexivity|]. destruct (p (Datatypes.S y)); cbn [length]; congruence. }
  specialize (IH i ltac:(lia)).
  destruct (str_eqb n x); cbn [length]; rewrite S; cbn [nth]; rewrite IH; reflexivity.
Qed.
Lemma numbered_at (names : list str) i (n : str) : nth i names [] = n -> numbered names i =
  if Nat.eqb (length (filter (str_eqb n) names)) 1 then n
  else n ++ $"_" ++ str_of_nat (length (filter (str_eqb n) (firstn i names))).
Proof. intros <-. reflexivity. Qed.
Lemma numbered_same (names : list str) i j : i < j < length names -> nth i names [] = nth j names [] -> numbered names i <> numbered names j.
Proof.
  intros L E. rewrite (numbered_at names i _ E), (numbered_at names j _ eq_refl). set (n := nth j names []).
  assert (C : length (filter (str_eqb n) (firstn i names)) < length (filter (str_eqb n) (firstn j names))).
  { rewrite !count_firstn by lia. replace j with (i + (1 + (j - i - 1))) by lia. rewrite !seq_app, !filter_app, !app_length, Nat.add_0_l.
    cbn [seq filter]. rewrite E. fold n. rewrite (proj2 (str_eqb_eq n n) eq_refl). cbn [length]. lia. }
  assert (M : length (filter (str_eqb n) (firstn j names)) < length (filter (str_eqb n) names)).
  { rewrite <- (firstn_skipn j names) at 2. rewrite filter_app, app_length.
    assert (P : In n (skipn j names)).
    { rewrite <- (firstn_skipn j names) in E at 2. unfold n. rewrite <- (firstn_skipn j names) at 1.
      rewrite app_nth2 by (rewrite firstn_length; lia). apply nth_In. rewrite firstn_length, skipn_length. lia. }
    apply count_pos in P. lia. }
  destruct (Nat.eqb_spec (length (filter (str_eqb n) names)) 1); [lia|].
  intros X. apply app_inv_head in X. apply app_inv_head in X. apply str_of_nat_inj in X. lia.
Qed.
Lemma numbered_distinct names : no_clash names -> NoDup (all_numbered names).
Proof.
  intros C. unfold all_numbered. apply NoDup_nth_error. intros i j L. rewrite map_length, seq_length in L.
  rewrite !nth_error_map. intros E. destruct (Nat.lt_ge_cases j (length names)) as [J|J].
  2: { rewrite (proj2 (nth_error_None (seq 0 (length names)) j)) in E by (rewrite seq_length; lia).
       rewrite nth_error_seq in E by lia. discriminate. }
  rewrite !nth_error_seq in E by lia. cbn [option_map] in E. injection E as E.
  assert (I : forall i, i < length names -> In (nth i names []) names) by (intros; now apply nth_In).
  destruct (list_eq_dec Ascii.ascii_dec (nth i names []) (nth j names [])) as [S|S].
  - destruct (Nat.lt_trichotomy i j) as [D|[D|D]]; [|exact D|]; exfalso.
    + apply (numbered_same names i j); [lia|exact S|exact E].
    + apply (numbered_same names j i); [lia|now symmetry|now symmetry].
  - exfalso. unfold numbered in E. cbv zeta in E.
    destruct (Nat.eqb _ 1), (Nat.eqb _ 1).
    + contradiction.
    + exact (C _ _ _ (I i L) (I j J) E).
    + exact (C _ _ _ (I j J) (I i L) (eq_sym E)).
    + apply number_split in E. tauto.
Qed.
Lemma reindex_numbered names : reindex_dupe_names names = all_numbered names.
Proof.
  unfold reindex_dupe_names, all_numbered. apply map_ext_in. intros i I. apply in_seq in I.
  unfold reindexed, numbered, count_str. cbv zeta.
  pose proof (count_pos (nth i names []) names (nth_In names [] (proj2 I))) as P.
  destruct (Nat.ltb_spec 1 (length (filter (str_eqb (nth i names [])) names))), (Nat.eqb_spec (length (filter (str_eqb (nth i names [])) names)) 1); try lia; reflexivity.
Qed.
Lemma renamed_names fs (names : list str) : length names = length fs -> map t_name (map (fun p => rename (fst p) (snd p)) (combine fs names)) = names.
Proof. revert names. induction fs as [|f fs IH]; intros [|n names] L; try discriminate; cbn in *; [reflexivity|]. f_equal. apply IH. lia. Qed.
Lemma all_numbered_length names : length (all_numbered names) = length names.
Proof. unfold all_numbered. now rewrite map_length, seq_length. Qed.
Lemma self_rename fs : map (fun p => rename (fst p) (snd p)) (combine fs (map t_name fs)) = fs.
Proof. induction fs as [|[? ? ? ?] fs IH]; cbn; [reflexivity|]. now rewrite IH. Qed.
Lemma convert_table_ok b fs : legal_table b fs -> convert_table b fs = Ok (table_columns b fs).
Proof.
  intros (N & D & F). unfold convert_table. cbv zeta.
  set (gs := if b then _ else fs).
  assert (G : gs = map (fun p => rename (fst p) (snd p)) (combine fs (column_names b fs))).
  { unfold gs, column_names. destruct b; [now rewrite reindex_numbered|]. now rewrite self_rename. }
  assert (Ln : length (column_names b fs) = length fs).
  { unfold column_names. destruct b; [rewrite all_numbered_length|]; apply map_length. }
  assert (Nm : map t_name gs = column_names b fs) by (rewrite G; now apply renamed_names).
  rewrite Nm, (proj2 (has_dup_iff _) D).
  assert (Fg : Forall (fun f => unmasked f /\ length (t_shape f) <= 2) gs).
  { rewrite G. apply Forall_map, Forall_forall. intros [f n] I. apply in_combine_l in I. rewrite Forall_forall in F. exact (F f I). }
  assert (Ng : gs <> []).
  { intros X. apply N. apply length_zero_iff_nil. rewrite <- Ln, <- Nm, X. reflexivity. }
  assert (T : table_columns b fs = flat_map field_columns gs).
  { rewrite G, flat_map_map. reflexivity. }
  rewrite T. clearbody gs. destruct gs as [|g gs]; [contradiction|].
  destruct (existsb (fun f => negb (length (t_shape f) =? 0)) (g :: gs)) eqn:E.
  - replace (existsb (fun f => 2 <? length (t_shape f)) (g :: gs)) with false; [now apply structured_ok|].
    symmetry. apply Bool.not_true_iff_false. intros X. apply existsb_exists in X as (f & I & X). rewrite Forall_forall in Fg.
    destruct (Fg f I). apply Nat.ltb_lt in X. lia.
  - f_equal. assert (Z : Forall (fun f => t_shape f = []) (g :: gs)).
    { apply Forall_forall. intros f I. destruct (t_shape f) eqn:Ef; [reflexivity|]. exfalso.
      assert (X : existsb (fun f => negb (length (t_shape f) =? 0)) (g :: gs) = true); [|congruence].
      apply existsb_exists. exists f. split; [exact I|]. now rewrite Ef. }
    clear - Z. induction Z as [|f fs H _ IH]; [reflexivity|]. cbn [map flat_map]. unfold field_columns at 1. now rewrite H, IH.
Qed.
Lemma body_ok h obj : data_object (h_data h) obj -> body_of h = Ok obj.
Proof. unfold body_of. intros H. inversion H; subst; try reflexivity. now rewrite convert_table_ok. Qed.
