(** C69: a FITS file opened directly: its keys, headers and data. *)
From Coq Require Import Permutation.
From Verif.Base Require Import Py Val PyFacts.
From Verif.Model Require Import Scaling Pds4Types Pds4Tables Pds4Values Pds4Frame Data Fits.
From Verif.Spec Require Import Fits.
From Verif.Proofs Require Import Scaling Pds4Frame Fits FitsKeys.
From Verif.Properties Require Import Fits.
Open Scope nat_scope.

Lemma opened_headers hs : Forall clean hs ->
  rmap (fun p => do h <- handle_fits_header false (cards_of hs (snd p)); Ok (fst p, h)) (fits_keys hs)
  = Ok (map (fun p => (fst p, header_says (nth (snd p) hs no_hdu))) (fits_keys hs)).
Proof.
  intros C. assert (I : forall p, In p (fits_keys hs) -> snd p < length hs).
  { intros [k i] H. apply (Permutation_in _ (keys_permutation hs)) in H. apply in_map_iff in H as (j & [= _ ->] & H). apply in_seq in H. cbn. lia. }
  induction (fits_keys hs) as [|p l IH]; [reflexivity|]. cbn [rmap map].
  assert (E : handle_fits_header false (cards_of hs (snd p)) = Ok (header_says (nth (snd p) hs no_hdu))).
  { unfold cards_of. apply header_clean. rewrite Forall_forall in C. apply C, nth_In, I. now left. }
  rewrite E. cbn [rbind]. rewrite IH by (intros; apply I; now right). reflexivity.
Qed.

(** Opening lists every HDU once, by its name, or by its name and its number among those of
    the same name *)
Theorem C69_keys : forall hs, Forall clean hs -> exists f, unpack_fits_headers hs = Ok f /\
  Permutation (f_index f) (map (hdu_key hs) (seq 0 (length hs))) /\
  (no_clash (map h_name hs) -> NoDup (f_index f)) /\
  (NoDup (map h_name hs) -> f_index f = map h_name hs).
Proof.
  intros hs C. unfold unpack_fits_headers. rewrite (opened_headers hs C). cbn [rbind]. eexists. split; [reflexivity|]. cbn [f_index].
  rewrite map_map. cbn [fst].
  assert (P : Permutation (map fst (fits_keys hs)) (map (hdu_key hs) (seq 0 (length hs)))).
  { rewrite (Permutation_map fst (keys_permutation hs)). rewrite map_map. reflexivity. }
  split; [exact P|]. split; [intros N; now apply keys_NoDup|].
  intros N. unfold fits_keys. rewrite (distinct_id _ N).
  assert (G : forall i, i < length hs -> group_keys hs (h_name (nth i hs no_hdu)) = [(h_name (nth i hs no_hdu), i)]).
  { intros i L. unfold group_keys, group_of.
    assert (X : filter (fun j => str_eqb (h_name (nth i hs no_hdu)) (h_name (nth j hs no_hdu))) (seq 0 (length hs)) = [i]).
    { replace (length hs) with (i + (1 + (length hs - i - 1))) at 1 by lia. rewrite !seq_app, !filter_app, Nat.add_0_l. cbn [seq filter].
      rewrite (proj2 (str_eqb_eq _ _) eq_refl).
      assert (Z : forall l, (forall j, In j l -> j < length hs /\ j <> i) -> filter (fun j => str_eqb (h_name (nth i hs no_hdu)) (h_name (nth j hs no_hdu))) l = []).
      { induction l as [|j l IHl]; intros H; [reflexivity|]. cbn [filter].
        destruct (str_eqb_spec (h_name (nth i hs no_hdu)) (h_name (nth j hs no_hdu))) as [Y|_]; [|apply IHl; intros; apply H; now right].
        exfalso. destruct (H j (or_introl eq_refl)) as [Lj Nj]. apply Nj. symmetry.
        apply (proj1 (NoDup_nth (map h_name hs) []) N); rewrite ?map_length; auto. now rewrite !nth_names. }
      rewrite (Z (seq 0 i)) by (intros j H; apply in_seq in H; lia).
      rewrite (Z (seq (i + 1) (length hs - i - 1))) by (intros j H; apply in_seq in H; lia). reflexivity. }
    rewrite X. reflexivity. }
  clear P. rewrite flat_map_map.
  assert (Y : forall l k, (forall j, j < length l -> nth_error hs (k + j) = nth_error l j) -> map fst (flat_map (fun h => group_keys hs (h_name h)) l) = map h_name l).
  { induction l as [|h l IHl]; intros k H; [reflexivity|]. cbn [flat_map map]. rewrite map_app, (IHl (S k)).
    - assert (E : nth_error hs k = Some h) by (rewrite <- (Nat.add_0_r k); rewrite (H 0) by (cbn; lia); reflexivity).
      assert (L : k < length hs) by (apply nth_error_Some; congruence).
      specialize (G k L). rewrite (nth_error_nth _ _ no_hdu E) in G. rewrite G. reflexivity.
    - intros j Lj. replace (S k + j) with (k + S j) by lia. rewrite (H (S j)) by (cbn; lia). reflexivity. }
  now apply (Y hs 0).
Qed.
Print Assumptions C69_keys.

(** The metadata: under its key, what each header says *)
Theorem C69_metadata : forall hs f i h, Forall clean hs -> unpack_fits_headers hs = Ok f -> nth_error hs i = Some h ->
  In (hdu_key hs i, header_says h) (f_headers f) /\
  (no_clash (map h_name hs) -> dict_get (f_headers f) (hdu_key hs i) = Some (header_says h) /\
     f_params f = flat_map (fun e => fst e :: map fst (snd e)) (f_headers f)).
Proof.
  intros hs f i h C O E. unfold unpack_fits_headers in O. rewrite (opened_headers hs C) in O. cbn [rbind] in O. injection O as <-. cbn [f_headers f_params].
  set (hd := map (fun p => (fst p, header_says (nth (snd p) hs no_hdu))) (fits_keys hs)).
  assert (I : In (hdu_key hs i, header_says h) hd).
  { unfold hd. apply in_map_iff. exists (hdu_key hs i, i). cbn [fst snd]. rewrite (nth_error_nth _ _ no_hdu E). split; [reflexivity|].
    apply (Permutation_in _ (Permutation_sym (keys_permutation hs))). apply (in_map (fun i => (hdu_key hs i, i))).
    apply in_seq. assert (i < length hs) by (apply nth_error_Some; congruence). lia. }
  split; [exact I|]. intros N.
  assert (D : NoDup (map fst hd)) by (unfold hd; rewrite map_map; cbn [fst]; now apply keys_NoDup).
  split; [now apply dict_get_in|].
  rewrite !flat_map_concat_map. f_equal. apply map_ext_in. intros [k v] Ik. cbn [fst snd]. now rewrite (dict_get_in hd k v D Ik).
Qed.
Print Assumptions C69_metadata.

(** "Any FITS file can be opened": not one with a card that needs mending, though loading would
    mend it (C68_header) *)
Theorem C69_bad_card_refuted : forall hs, ~ Forall clean hs -> unpack_fits_headers hs = Err VerifyError.
Proof.
  intros hs C. unfold unpack_fits_headers.
  assert (X : exists p, In p (fits_keys hs) /\ ~ clean (nth (snd p) hs no_hdu)).
  { apply Exists_exists. assert (D : forall h, clean h \/ ~ clean h).
    { intros h. unfold clean. destruct (existsb is_bad (h_cards h)) eqn:B.
      - right. intros F. apply existsb_exists in B as (c & I & B). rewrite Forall_forall in F. destruct (F c I) as (t & ->). discriminate.
      - left. apply Forall_forall. intros [t|o] I; [eauto|]. assert (existsb is_bad (h_cards h) = true) by (apply existsb_exists; exists (Bad o); auto). congruence. }
    assert (Ex : Exists (fun h => ~ clean h) hs).
    { clear - C D. induction hs as [|h hs IH]; [exfalso; apply C; constructor|]. destruct (D h) as [H|H]; [|now left].
      right. apply IH. intros F. apply C. now constructor. }
    apply Exists_exists in Ex as (h & Ih & Nh). apply In_nth_error in Ih as (i & E). apply Exists_exists. exists (hdu_key hs i, i). split.
    - apply (Permutation_in _ (Permutation_sym (keys_permutation hs))). apply (in_map (fun i => (hdu_key hs i, i))).
      apply in_seq. assert (i < length hs) by (apply nth_error_Some; congruence). lia.
    - cbn [snd]. now rewrite (nth_error_nth _ _ no_hdu E). }
  assert (Y : rmap (fun p => do h <- handle_fits_header false (cards_of hs (snd p)); Ok (fst p, h)) (fits_keys hs) = Err VerifyError); [|now rewrite Y].
  destruct X as (p & I & N). induction (fits_keys hs) as [|q l IH]; [destruct I|]. cbn [rmap].
  unfold cards_of at 1. rewrite header_strict. destruct (existsb is_bad (h_cards (nth (snd q) hs no_hdu))) eqn:B; [reflexivity|]. cbn [rbind].
  destruct I as [<-|I].
  - pose proof (header_dirty _ N) as Hd. rewrite header_strict, B in Hd. discriminate.
  - now rewrite (IH I).
Qed.
Print Assumptions C69_bad_card_refuted.

(** ** Loading *)
Lemma hdumap_key hs f i : Forall clean hs -> no_clash (map h_name hs) -> unpack_fits_headers hs = Ok f -> i < length hs ->
  dict_get (f_hdumap f) (hdu_key hs i) = Some i /\ In (hdu_key hs i) (f_index f).
Proof.
  intros C N O L. unfold unpack_fits_headers in O. rewrite (opened_headers hs C) in O. cbn [rbind] in O. injection O as <-. cbn [f_hdumap f_index].
  assert (I : In (hdu_key hs i, i) (fits_keys hs)).
  { apply (Permutation_in _ (Permutation_sym (keys_permutation hs))). apply (in_map (fun i => (hdu_key hs i, i))). apply in_seq. lia. }
  split.
  - rewrite fold_dict_get by now apply keys_NoDup. now rewrite (dict_get_in _ _ i (keys_NoDup hs N) I).
  - rewrite map_map. cbn [fst]. now apply (in_map fst) in I.
Qed.
Lemma add_one {V} (st : state V) (k : str) v : let st' := add_loaded_object st (k, Some v) in
  attr st' k = Some v /\ (forall n, n <> k -> attr st' n = attr st n) /\ (forall n, In n (listed st') <-> In n (listed st) \/ n = k).
Proof.
  intros st'. unfold st', add_loaded_object. cbn [snd fst].
  assert (A : forall n, (if str_eqb n k then Some v else attr st n) = if str_eqb n k then Some v else attr st n) by reflexivity.
  destruct (str_in k (listed (setattr st k v))) eqn:Q; cbn [attr setattr listed] in *; rewrite (proj2 (str_eqb_eq k k) eq_refl);
    (split; [reflexivity|]); (split; [intros n Nn; destruct (str_eqb_spec n k); [contradiction|reflexivity]|]); intros n.
  - apply str_in_iff in Q. split; [auto|]. intros [X| ->]; assumption.
  - rewrite in_app_iff. cbn [In]. intuition congruence.
Qed.
(** Whatever has been loaded before: accessing the key of an HDU not loaded yet gives its
    data, and its header under the key with _HEADER *)
Theorem C69_access : forall hs f i h obj builtin fuel st, Forall clean hs -> no_clash (map h_name hs) ->
  unpack_fits_headers hs = Ok f -> nth_error hs i = Some h -> data_object (h_data h) obj ->
  In (hdu_key hs i) (map h_name hs) \/ ~ asks_header (hdu_key hs i) ->
  hdu_key hs i <> $"all" -> builtin (hdu_key hs i) = None ->
  attr st (hdu_key hs i) = None -> (exists more, listed st = f_index f ++ more) ->
  exists st', access builtin (fun _ => load_primary_fits hs f) fuel st (hdu_key hs i) = Some (st', Ok obj) /\
    attr st' (hdu_key hs i) = Some obj /\
    attr st' (hdu_key hs i ++ $"_HEADER") = Some (OHeader (header_says h)) /\
    (forall k, k <> hdu_key hs i -> k <> hdu_key hs i ++ $"_HEADER" -> attr st' k = attr st k) /\
    (forall k, In k (listed st) \/ k = hdu_key hs i ++ $"_HEADER" <-> In k (listed st')).
Proof.
  intros hs f i h obj builtin fuel st C N O E D A Nall B Hn (more & Lst).
  assert (L : i < length hs) by (apply nth_error_Some; congruence).
  destruct (hdumap_key hs f i C N O L) as [M I]. set (key := hdu_key hs i) in *.
  assert (In_ : str_in key (listed st) = true) by (apply str_in_iff; rewrite Lst; apply in_or_app; now left).
  assert (H : load_primary_fits hs f key = Returned [(key ++ $"_HEADER", Some (OHeader (header_says h))); (key, Some obj)]).
  { unfold load_primary_fits. rewrite M. unfold handle_fits_file, locate.
    replace (contains $"HEADER" key && negb (str_in key (map h_name hs))) with false.
    - cbn [rbind fst snd]. rewrite (proj2 (Nat.ltb_lt _ _) L), (header_value_ok _ _ _ E). cbn [rbind].
      rewrite (nth_error_nth _ _ no_hdu E), (body_ok _ _ D). cbn [rbind dict_set].
      destruct (str_eqb_spec (key ++ $"_HEADER") key) as [X|_]; [now apply header_name_ne in X|]. reflexivity.
    - destruct A as [A|A].
      + rewrite (proj2 (str_in_iff _ _) A). now rewrite andb_false_r.
      + destruct (contains $"HEADER" key) eqn:X; [|reflexivity]. exfalso. apply A. now apply asks_iff. }
  unfold access, lookup. rewrite Hn, B, In_. cbn [negb].
  unfold load. destruct (str_eqb_spec key $"all") as [X|_]; [contradiction|].
  unfold load_one. rewrite In_. cbn [negb]. unfold in_dir, lookup. rewrite Hn, B. cbn [andb].
  assert (R : exists s2, run_loader (fun _ => load_primary_fits hs f) st key = (s2, Ok tt) /\ attr s2 key = Some obj /\ attr s2 (key ++ $"_HEADER") = Some (OHeader (header_says h)) /\
    (forall k, k <> key -> k <> key ++ $"_HEADER" -> attr s2 k = attr st k) /\ (forall k, In k (listed s2) <-> (In k (listed st) \/ k = key ++ $"_HEADER") \/ k = key)).
  { unfold run_loader. rewrite H. eexists. split; [reflexivity|]. pose proof (header_name_ne key) as Ne.
    destruct (add_one (mkState (listed st) (attr st) (key :: calls st)) (key ++ $"_HEADER") (OHeader (header_says h))) as (A1 & B1 & L1).
    destruct (add_one (add_loaded_object (mkState (listed st) (attr st) (key :: calls st)) (key ++ $"_HEADER", Some (OHeader (header_says h)))) key obj) as (A2 & B2 & L2).
    split; [exact A2|]. split; [exact (eq_trans (B2 _ Ne) A1)|]. split; [intros k K1 K2; exact (eq_trans (B2 _ K1) (B1 _ K2))|].
    intros k. specialize (L1 k). specialize (L2 k). cbn [listed] in L1. split.
    - intros X. apply L2 in X as [X|X]; [left; now apply L1|now right].
    - intros [X|X]; apply L2; [left; now apply L1|now right]. }
  destruct R as (s2 & R & A2 & A1 & B2 & L2). rewrite R.
  rewrite A2. exists s2. split; [reflexivity|]. split; [exact A2|]. split; [exact A1|]. split; [exact B2|].
  intros k. rewrite L2. apply str_in_iff in In_. split; [tauto|]. intros [X| ->]; tauto.
Qed.
Print Assumptions C69_access.

(** "Every HDU has its own key": not if HDUs are called A, A and A_0 *)
Definition clashing : list hdu := [mkH $"A" [] 2880 2880 (Some (FArr [1] [VI 1])); mkH $"A" [] 2880 2880 (Some (FArr [1] [VI 2])); mkH $"A_0" [] 2880 2880 (Some (FArr [1] [VI 3]))].
Theorem C69_clash_refuted : exists f, unpack_fits_headers clashing = Ok f /\ f_index f = [$"A_0"; $"A_1"; $"A_0"] /\
  load_primary_fits clashing f $"A_0" = Returned [($"A_0_HEADER", Some (OHeader [])); ($"A_0", Some (OArray [1] [VI 3]))].
Proof. eexists. split; [vm_compute; reflexivity|]. split; [reflexivity|vm_compute; reflexivity]. Qed.
Print Assumptions C69_clash_refuted.
(** "The data of every HDU can be loaded": not those of two HDUs called HEADER or the like *)
Theorem C69_header_names_refuted : forall hs f i h, Forall clean hs -> no_clash (map h_name hs) -> unpack_fits_headers hs = Ok f ->
  nth_error hs i = Some h -> asks_header (h_name h) -> (exists j, j <> i /\ nth_error (map h_name hs) j = Some (h_name h)) ->
  load_primary_fits hs f (hdu_key hs i) = Returned [(hdu_key hs i, Some (OHeader (header_says h)))].
Proof.
  intros hs f i h C N O E A (j & Nj & Ej). assert (L : i < length hs) by (apply nth_error_Some; congruence).
  destruct (hdumap_key hs f i C N O L) as [M _].
  assert (K : exists k, hdu_key hs i = h_name h ++ $"_" ++ str_of_nat k).
  { unfold hdu_key, numbered. cbv zeta. rewrite nth_names, (nth_error_nth _ _ no_hdu E).
    destruct (Nat.eqb_spec (length (filter (str_eqb (h_name h)) (map h_name hs))) 1) as [X|_]; [|eauto]. exfalso.
    assert (Lj : j < length (map h_name hs)) by (apply nth_error_Some; congruence).
    assert (Ei : nth i (map h_name hs) [] = nth j (map h_name hs) []).
    { rewrite nth_names, (nth_error_nth _ _ no_hdu E). symmetry. now apply nth_error_nth. }
    assert (Y : forall a b, a < b -> b < length (map h_name hs) -> nth a (map h_name hs) [] = h_name h -> nth b (map h_name hs) [] = h_name h -> False).
    { intros a b Lab Lb Ea Eb. rewrite <- (firstn_skipn b (map h_name hs)), filter_app, app_length in X.
      assert (I1 : In (h_name h) (firstn b (map h_name hs))).
      { rewrite <- Ea. rewrite <- (firstn_skipn b (map h_name hs)) at 1. rewrite app_nth1 by (rewrite firstn_length; lia). apply nth_In. rewrite firstn_length. lia. }
      assert (I2 : In (h_name h) (skipn b (map h_name hs))).
      { rewrite <- Eb. rewrite <- (firstn_skipn b (map h_name hs)) at 1. rewrite app_nth2 by (rewrite firstn_length; lia). apply nth_In. rewrite firstn_length, skipn_length. lia. }
      apply count_pos in I1, I2. lia. }
    rewrite nth_names, (nth_error_nth _ _ no_hdu E) in Ei. destruct (Nat.lt_trichotomy i j) as [T|[T|T]]; [|congruence|].
    - apply (Y i j); auto. now rewrite nth_names, (nth_error_nth _ _ no_hdu E).
    - apply (Y j i); auto; [now rewrite map_length|]. now rewrite nth_names, (nth_error_nth _ _ no_hdu E). }
  destruct K as (k & K). unfold load_primary_fits. rewrite M. unfold handle_fits_file, locate.
  replace (contains $"HEADER" (hdu_key hs i) && negb (str_in (hdu_key hs i) (map h_name hs))) with true.
  - cbn [rbind fst snd]. rewrite (proj2 (Nat.ltb_lt _ _) L), (header_value_ok _ _ _ E). reflexivity.
  - symmetry. apply andb_true_intro. split.
    + apply asks_iff. rewrite K. destruct A as (a & b & ->). exists a, (b ++ $"_" ++ str_of_nat k). now rewrite <- !app_assoc.
    + rewrite Bool.negb_true_iff. apply Bool.not_true_iff_false. intros X. apply str_in_iff in X.
      apply (N _ (h_name h) k X); [|exact K]. apply in_map. eapply nth_error_In; eauto.
Qed.
Print Assumptions C69_header_names_refuted.

(** ** Tables *)
(** A table's columns: those of its fields in order, a field of several elements giving one
    for each; in binary tables, equal names are numbered *)
Theorem C69_table : forall binary fs, legal_table binary fs -> convert_table binary fs = Ok (table_columns binary fs).
Proof. exact convert_table_ok. Qed.
Print Assumptions C69_table.
Theorem C69_columns_distinct : forall fs, no_clash (map t_name fs) -> NoDup (column_names true fs).
Proof. intros fs C. now apply numbered_distinct. Qed.
Print Assumptions C69_columns_distinct.
(** "Equal names are made different": not if there is a third that looks like a number
    was added to it, or in ASCII tables *)
Theorem C69_columns_refuted : exists fs gs,
  map t_name fs = [$"A"; $"A"; $"A_1"] /\ convert_table true fs = Err ValueError /\
  map t_name gs = [$"A"; $"A"] /\ convert_table false gs = Err ValueError.
Proof.
  exists [mkT $"A" [] None (FText [$"x"]); mkT $"A" [] None (FText [$"y"]); mkT $"A_1" [] None (FText [$"z"])], [mkT $"A" [] None (FText [$"x"]); mkT $"A" [] None (FText [$"y"])].
  repeat split.
Qed.
Print Assumptions C69_columns_refuted.

(** ** A case that meets the hypotheses *)
Definition tidy_hdus : list hdu :=
  [mkH $"PRIMARY" [Good (mkC $"SIMPLE" (CV (PBool true)) $"standard")] 2880 0 None;
   mkH $"SCI" [Good (mkC $"BITPIX" (CV (PInt 16)) [])] 2880 2880 (Some (FArr [2] [VI 7; VI 8]));
   mkH $"ERR" [] 2880 2880 (Some (FArr [1] [VI 1]));
   mkH $"SCI" [Good (mkC $"BITPIX" (CV (PInt 8)) [])] 2880 2880 (Some (FArr [2] [VI 9; VI 10]))].
Lemma tidy_names : no_clash (map h_name tidy_hdus).
Proof.
  intros n m k I J E. assert (X : In "_"%char n).
  { rewrite E. apply in_or_app. right. now left. }
  cbn in I. repeat (destruct I as [<-|I]; [cbn in X; intuition discriminate|]). exact I.
Qed.
Example C69_meets : exists f st', unpack_fits_headers tidy_hdus = Ok f /\ f_index f = [$"PRIMARY"; $"SCI_0"; $"SCI_1"; $"ERR"] /\
  access (fun _ => None) (fun _ => load_primary_fits tidy_hdus f) 5 (new_data f) $"SCI_1" = Some (st', Ok (OArray [2] [VI 9; VI 10])) /\
  attr st' $"SCI_1_HEADER" = Some (OHeader [($"BITPIX", PInt 8)]).
Proof.
  assert (C : Forall clean tidy_hdus) by (repeat constructor; eexists; reflexivity).
  destruct (unpack_fits_headers tidy_hdus) as [f|e] eqn:O; [|vm_compute in O; discriminate].
  destruct (C69_access tidy_hdus f 3 _ _ (fun _ => None) 5 (new_data f) C tidy_names O eq_refl (array_data [2] [VI 9; VI 10])) as (st' & A & _ & H & _).
  - right. intros X. apply asks_iff in X. vm_compute in X. discriminate.
  - intros X. vm_compute in X. discriminate.
  - reflexivity.
  - reflexivity.
  - exists []. now rewrite app_nil_r.
  - exists f, st'. split; [reflexivity|]. split; [|split; [exact A|exact H]]. vm_compute in O. injection O as <-. reflexivity.
Qed.
