(** Properties C25, C26 and C51: table formats. *)
From Coq Require Import Lia.
From Verif.Base Require Import Py PyFacts Val.
From Verif.Model Require Import Files Table.
From Verif.Spec Require Import Table.
From Verif.Proofs Require Import Files Table TableLabel.
Open Scope Z_scope.

(** ** C51 *)
(** What comes out is the expansion of what goes in ... *)
Theorem C51_format_files_spliced : forall load fuel items out,
  inject_all load fuel items = Ok out -> expands (contents load) items out.
Proof. exact inject_sound. Qed.
Print Assumptions C51_format_files_spliced.
(** ... and whatever has an expansion gets it *)
Theorem C51_every_expansion_found : forall load items out, expands (contents load) items out ->
  exists rounds, forall fuel, (rounds < fuel)%nat -> inject_all load fuel items = Ok out.
Proof.
  intros load items out H. apply expands_deep in H as [n H]. exists n. intros fuel Hf. eapply inject_complete; eauto.
Qed.
Print Assumptions C51_every_expansion_found.
(** one pass replaces each pointer by the columns of its file, in place *)
Theorem C51_one_pass : forall load a k v b file cols b',
  Forall (fun kv => ~ structure_pointer (fst kv)) a -> structure_pointer k -> load v = Ok file -> stands_for file cols ->
  inject_format_files load b = Ok b' -> inject_format_files load (a ++ (k, v) :: b) = Ok (a ++ cols ++ b').
Proof.
  intros load a k v b file cols b' Ha Hk Hl Hs Hb. rewrite inject_splice in *. 
  induction Ha as [|[k' v'] a Hk' _ IH]; cbn [app splice].
  - rewrite (proj2 (is_structure_iff k) Hk), Hl. cbn [rbind]. rewrite (proj2 (unwrap_stands file cols) Hs). cbn [rbind]. now rewrite Hb.
  - rewrite (proj2 (not_structure k') Hk'), IH. reflexivity.
Qed.
Print Assumptions C51_one_pass.
(** A missing file fails the whole table. *)
Theorem C51_missing_file_raises : forall load fuel items k v e, In (k, v) items -> structure_pointer k -> load v = Err e ->
  forall out, inject_all load fuel items <> Ok out.
Proof.
  intros load fuel items k v e Hin Hk Hl out H. apply inject_sound in H. revert Hin.
  induction H as [|k' v' l l' Hk' _ IH|k' v' l l' file its its' Hk' Hc Hs _ _ _ IH]; intros Hin; [easy| |].
  - destruct Hin as [E|Hin]; [congruence|auto].
  - destruct Hin as [E|Hin]; [|auto]. injection E as -> ->. unfold contents in Hc. rewrite Hl in Hc. discriminate.
Qed.
Print Assumptions C51_missing_file_raises.
(** A format file that includes itself keeps the program going round forever. *)
Theorem C51_self_inclusion_diverges_refuted : exists load items,
  load (PStr $"A.FMT") = Ok items /\ (forall fuel, inject_all load fuel items = Err OutOfFuel) /\ (exists k, In (k, PStr $"A.FMT") items).
Proof.
  exists (fun _ => Ok [($"^STRUCTURE", PStr $"A.FMT")]), [($"^STRUCTURE", PStr $"A.FMT")].
  split; [reflexivity|]. split; [|eexists; now left]. induction fuel as [|fuel IH]; [reflexivity|exact IH].
Qed.
Print Assumptions C51_self_inclusion_diverges_refuted.
Definition ex_load (v : pv) : res (list (str * pv)) :=
  match v with
  | PStr n => if str_eqb n $"A.FMT" then Ok [($"COLUMN", PStr $"c1"); ($"^X_STRUCTURE", PStr $"B.FMT"); ($"COLUMN", PStr $"c3")]
              else if str_eqb n $"B.FMT" then Ok [($"MY_TABLE", PMulti [($"COLUMN", PStr $"c2")])] else Err FileNotFoundError
  | _ => Err TypeError
  end.
Example C51_meets :
  expands (contents ex_load) [($"NAME", PStr $"T"); ($"^STRUCTURE", PStr $"A.FMT"); ($"COLUMN", PStr $"c4")]
    [($"NAME", PStr $"T"); ($"COLUMN", PStr $"c1"); ($"COLUMN", PStr $"c2"); ($"COLUMN", PStr $"c3"); ($"COLUMN", PStr $"c4")].
Proof. apply (inject_sound ex_load 5). vm_compute. reflexivity. Qed.

(** ** C26 *)
Theorem C26_length_kept : forall rows, List.length (reindex_names rows) = List.length rows.
Proof. intros rows. apply rename_length. Qed.
Print Assumptions C26_length_kept.
(** a name that occurs once is kept, in its place *)
Theorem C26_unique_names_kept : forall rows i n s, nth_error rows i = Some (n, s) -> occurrences (map fst rows) n = 1%nat ->
  nth_error (reindex_names rows) i = Some n.
Proof.
  intros rows i n s Hi Ho. unfold reindex_names. rewrite rename_nth, Hi. rewrite count_occ_, Ho. reflexivity.
Qed.
Print Assumptions C26_unique_names_kept.
(** a name that occurs several times gets the number of its earlier occurrences *)
Theorem C26_duplicates_numbered : forall rows i n s, nth_error rows i = Some (n, s) -> occurrences (map fst rows) n <> 1%nat ->
  n <> $"RESERVED" ->
  nth_error (reindex_names rows) i = Some (numbered n (occurrences (map fst (firstn i rows)) n)).
Proof.
  intros rows i n s Hi Ho Hr. unfold reindex_names. rewrite rename_nth, Hi. rewrite count_occ_.
  rewrite (proj2 (Nat.eqb_neq _ _) Ho). unfold group_base. rewrite (proj2 (str_eqb_neq _ _) Hr).
  unfold numbered. rewrite count_occ_. cbn. now rewrite Nat.add_0_r.
Qed.
Print Assumptions C26_duplicates_numbered.
(** several RESERVED columns: the start of the first is part of all the names *)
Theorem C26_reserved_numbered : forall (rows : list (str * str)) i s s0, nth_error rows i = Some ($"RESERVED", s) ->
  occurrences (map fst rows) $"RESERVED" <> 1%nat -> nth_error (filter (fun r => str_eqb (fst r) $"RESERVED") rows) 0 = Some ($"RESERVED", s0) ->
  nth_error (reindex_names rows) i = Some (numbered ($"RESERVED_" ++ s0) (occurrences (map fst (firstn i rows)) $"RESERVED")).
Proof.
  intros rows i s s0 Hi Ho Hf. unfold reindex_names. rewrite rename_nth, Hi, count_occ_.
  rewrite (proj2 (Nat.eqb_neq _ _) Ho). unfold group_base. rewrite str_eqb_refl.
  assert (E : find (fun r => str_eqb (fst r) $"RESERVED") rows = Some ($"RESERVED", s0)).
  { clear - Hf. induction rows as [|r rows IH]; [discriminate|]. cbn [filter find] in *. destruct (str_eqb (fst r) $"RESERVED"); [|auto].
    cbn in Hf. exact Hf. }
  rewrite E. unfold numbered. rewrite count_occ_. cbn [snd occurrences filter List.length count_name]. rewrite Nat.add_0_r. reflexivity.
Qed.
Print Assumptions C26_reserved_numbered.
Lemma underscore_split a b k l : numbered a k = numbered b l -> a = b /\ k = l.
Proof.
  unfold numbered. intros H.
  assert (Hd : forall n, ~ In "_"%char (str_of_nat n)).
  { intros n Hin. apply to_base_chars in Hin as (d & Hl & E); [|lia]. revert E.
    assert (C : (d = 0 \/ d = 1 \/ d = 2 \/ d = 3 \/ d = 4 \/ d = 5 \/ d = 6 \/ d = 7 \/ d = 8 \/ d = 9)%N) by lia.
    repeat (destruct C as [->|C]; [vm_compute; discriminate|]). subst. vm_compute. discriminate. }
  apply (f_equal (@rev _)) in H. rewrite !rev_app_distr in H. cbn [rev app] in H.
  assert (G : forall (x y : str) u v, ~ In "_"%char x -> ~ In "_"%char y -> (x ++ ["_"%char]) ++ u = (y ++ ["_"%char]) ++ v -> x = y /\ u = v).
  { clear. induction x as [|c x IH]; intros y u v Hx Hy E; destruct y as [|d y]; cbn in E.
    - injection E as ->. auto.
    - injection E as <- _. exfalso. apply Hy. now left.
    - injection E as -> _. exfalso. apply Hx. now left.
    - injection E as -> E. destruct (IH y u v) as [-> ->]; auto; intro; [apply Hx|apply Hy]; now right. }
  rewrite <- !app_assoc in H. cbn [app] in H.
  destruct (G (rev (str_of_nat k)) (rev (str_of_nat l)) (rev a) (rev b)) as [E1 E2].
  - rewrite <- in_rev. apply Hd.
  - rewrite <- in_rev. apply Hd.
  - rewrite <- !app_assoc. exact H.
  - split; [rewrite <- (rev_involutive a), E2; apply rev_involutive|].
    apply str_of_nat_inj. rewrite <- (rev_involutive (str_of_nat k)), E1. apply rev_involutive.
Qed.
(** If no name already ends in an underscore and a number, all names become different. *)
Lemma count_prefix (names : list str) n i j : (i < j)%nat -> nth_error names i = Some n ->
  (occurrences (firstn i names) n < occurrences (firstn j names) n)%nat.
Proof.
  unfold occurrences. revert i j. induction names as [|x names IH]; intros i j Hij Hi; [destruct i; discriminate|].
  destruct j as [|j]; [lia|]. destruct i as [|i]; cbn [nth_error firstn filter] in *.
  - injection Hi as ->. rewrite str_eqb_refl. cbn. lia.
  - specialize (IH i j ltac:(lia) Hi). destruct (str_eqb n x); cbn [List.length]; lia.
Qed.
Lemma count_two (names : list str) n i j : (i < j)%nat -> nth_error names i = Some n -> nth_error names j = Some n -> occurrences names n <> 1%nat.
Proof.
  intros Hij Hi Hj. assert (H1 := count_prefix names n i j Hij Hi).
  assert (H2 := count_prefix names n j (S j) ltac:(lia) Hj).
  assert (H3 : (occurrences (firstn (S j) names) n <= occurrences names n)%nat).
  { unfold occurrences. rewrite <- (firstn_skipn (S j) names) at 2. rewrite filter_app, app_length. lia. }
  lia.
Qed.
Lemma nth_map_fst (rows : list (str * str)) i n s : nth_error rows i = Some (n, s) -> nth_error (map fst rows) i = Some n.
Proof. intros H. rewrite nth_error_map, H. reflexivity. Qed.
Theorem C26_names_become_unique : forall rows,
  (forall n s, In (n, s) rows -> ~ ends_in_number n) -> (forall s, In ($"RESERVED", s) rows -> exists k, s = str_of_nat k) ->
  NoDup (reindex_names rows).
Proof.
  intros rows Hno Hres. apply NoDup_nth_error. intros i j Hi Hij. rewrite C26_length_kept in Hi.
  destruct (nth_error rows i) as [[n s]|] eqn:Ei; [|apply nth_error_None in Ei; lia].
  assert (Hj : (j < List.length rows)%nat).
  { rewrite <- C26_length_kept. apply nth_error_Some. rewrite <- Hij. apply nth_error_Some. now rewrite C26_length_kept. }
  destruct (nth_error rows j) as [[m u]|] eqn:Ej; [|apply nth_error_None in Ej; lia].
  assert (Hshape : forall i n s, nth_error rows i = Some (n, s) ->
    (occurrences (map fst rows) n = 1%nat /\ nth_error (reindex_names rows) i = Some n) \/
    (occurrences (map fst rows) n <> 1%nat /\ exists b, nth_error (reindex_names rows) i = Some (numbered b (occurrences (firstn i (map fst rows)) n)) /\
       (b = n \/ (n = $"RESERVED" /\ ends_in_number b)))).
  { clear - Hres. intros i n s Hi. destruct (Nat.eq_dec (occurrences (map fst rows) n) 1) as [H1|H1]; [left|right]; (split; [exact H1|]).
    - eapply C26_unique_names_kept; eauto.
    - rewrite firstn_map. destruct (str_eq_dec n $"RESERVED") as [->|Hn].
      + destruct (filter (fun r => str_eqb (fst r) $"RESERVED") rows) as [|[r0 s0] rs] eqn:Ef.
        { exfalso. apply nth_error_In in Hi. assert (Hin : In (($"RESERVED" : str), s) (filter (fun r => str_eqb (fst r) $"RESERVED") rows)); [|rewrite Ef in Hin; destruct Hin]. apply filter_In. split; [exact Hi|apply str_eqb_refl]. }
        assert (Hin : In (r0, s0) rows /\ r0 = $"RESERVED").
        { assert (In (r0, s0) ((r0, s0) :: rs)) as Hin by now left. rewrite <- Ef in Hin. apply filter_In in Hin as [Hin E]. cbn [fst] in E. apply str_eqb_eq in E. auto. }
        destruct Hin as [Hin ->]. exists ($"RESERVED_" ++ s0). split; [eapply C26_reserved_numbered; eauto; now rewrite Ef|].
        right. split; [reflexivity|]. destruct (Hres _ Hin) as [k ->]. exists $"RESERVED", k. reflexivity.
      + exists n. split; [eapply C26_duplicates_numbered; eauto|]. now left. }
  destruct (Hshape i n s Ei) as [[O1 R1]|(O1 & b1 & R1 & D1)]; destruct (Hshape j m u Ej) as [[O2 R2]|(O2 & b2 & R2 & D2)].
  - rewrite R1, R2 in Hij. injection Hij as ->.
    destruct (Nat.lt_trichotomy i j) as [H|[H|H]]; [exfalso|exact H|exfalso].
    + eapply (count_two (map fst rows) m i j); eauto using nth_map_fst.
    + eapply (count_two (map fst rows) m j i); eauto using nth_map_fst.
  - exfalso. rewrite R1, R2 in Hij. injection Hij as ->. eapply Hno; [exact (nth_error_In _ _ Ei)|]. eexists _, _; reflexivity.
  - exfalso. rewrite R1, R2 in Hij. injection Hij as <-. eapply Hno; [exact (nth_error_In _ _ Ej)|]. eexists _, _; reflexivity.
  - rewrite R1, R2 in Hij. injection Hij as Hij. apply underscore_split in Hij as [Eb Ek].
    assert (En : n = m).
    { destruct D1 as [D1|[D1 G1]], D2 as [D2|[D2 G2]]; try congruence.
      - exfalso. apply (Hno n s); [exact (nth_error_In _ _ Ei)|]. now rewrite <- D1, Eb.
      - exfalso. apply (Hno m u); [exact (nth_error_In _ _ Ej)|]. now rewrite <- D2, <- Eb. }
    subst m. destruct (Nat.lt_trichotomy i j) as [H|[H|H]]; [|exact H|].
    + assert (C := count_prefix (map fst rows) n i j H (nth_map_fst _ _ _ _ Ei)). lia.
    + assert (C := count_prefix (map fst rows) n j i H (nth_map_fst _ _ _ _ Ej)). lia.
Qed.
Print Assumptions C26_names_become_unique.
Theorem C26_names_can_collide_refuted : exists rows, reindex_names rows = [$"A_0"; $"A_1"; $"A_0"].
Proof. exists [($"A", $"1"); ($"A", $"2"); ($"A_0", $"3")]. vm_compute. reflexivity. Qed.
Print Assumptions C26_names_can_collide_refuted.
Example C26_meets : reindex_names [($"A", $"1"); ($"RESERVED", $"3"); ($"A", $"5"); ($"B", $"7"); ($"RESERVED", $"9")] =
  [$"A_0"; $"RESERVED_3_0"; $"A_1"; $"B"; $"RESERVED_3_1"].
Proof. vm_compute. reflexivity. Qed.

(** ** C25 *)
Definition row_measures (m : multidict) (prefix suffix bytes : option Z) : Prop :=
  may_hold m $"ROW_PREFIX_BYTES" prefix /\ may_hold m $"ROW_SUFFIX_BYTES" suffix /\ may_hold m $"ROW_BYTES" bytes.
Lemma row_info_of m prefix suffix bytes : row_measures m prefix suffix bytes -> row_info m = Ok (mkI prefix suffix bytes).
Proof.
  intros (H1 & H2 & H3). unfold row_info, opt_int. change (@dict_get pv) with md_get. unfold may_hold, holds, lacks in *.
  destruct prefix, suffix, bytes; rewrite H1, H2, H3; reflexivity.
Qed.
(** Every column of the label, and every item and repetition of it, is found where the label says,
    in the label's order. *)
Lemma table_read load bits fuel m name t blk bb prefix suffix bytes :
  says_table m t -> named m blk -> may_hold m $"BYTES" bb -> row_measures m prefix suffix bytes ->
  good_table blk t -> name <> $"CONTAINER" -> (3 <= fuel)%nat ->
  exists rows tail, parse_table_structure load bits fuel m name = Ok (rows, tail) /\
    map cell_of rows = table_cells (opt0 prefix) t /\ tail_row (mkI prefix suffix bytes) rows = Ok tail /\
    exists fields nd, read_format_block load bits fuel m name = Ok (fields, nd) /\
      table_shape field_is (blk, 1, bb) t fields /\ table_shape core_is (blk, 1, bb) t (map o_row rows) /\
      map (fun o => r_name (o_row o)) rows = reindex_names (map (fun f => (name_of f, start_text f)) fields).
Proof.
  intros Hs Hn Hb Hm Hg Hc Hf. unfold parse_table_structure.
  destruct (table_fields load bits fuel name m blk bb t) as (fields & nd & E & Hsh); auto.
  { apply good_items. apply Hg. }
  rewrite E. cbn [rbind fst]. rewrite (row_info_of _ _ _ _ Hm). cbn [rbind].
  destruct (rows_of_fields _ _ _ Hsh ltac:(apply Hg)) as (rows & Er & Hr & Hnp & Hnames). rewrite Er. cbn [rbind].
  destruct (compute_table (mkI prefix suffix bytes) blk bb t rows Hr Hg Hnp) as (out & tail & Eo & Et & Hcells & Hrows).
  rewrite Eo. exists out, tail. split; [reflexivity|]. split; [exact Hcells|]. split; [exact Et|].
  exists fields, nd. repeat split; auto; [now rewrite Hrows|]. rewrite <- Hnames, <- Hrows, map_map. reflexivity.
Qed.
Theorem C25_columns_where_label_says : forall load bits fuel m name t blk bb prefix suffix bytes,
  says_table m t -> named m blk -> may_hold m $"BYTES" bb -> row_measures m prefix suffix bytes ->
  good_table blk t -> name <> $"CONTAINER" -> (3 <= fuel)%nat ->
  exists rows tail, parse_table_structure load bits fuel m name = Ok (rows, tail) /\
    map (fun o => (o_off o, cell_width (o_row o))) rows = table_cells (opt0 prefix) t.
Proof.
  intros. destruct (table_read load bits fuel m name t blk bb prefix suffix bytes) as (rows & tail & E & Hc & _); auto.
  exists rows, tail. auto.
Qed.
Print Assumptions C25_columns_where_label_says.
(** the same as character ranges of a fixed-width text table *)
Theorem C25_text_ranges : forall load bits fuel m name t blk bb prefix suffix bytes,
  says_table m t -> named m blk -> may_hold m $"BYTES" bb -> row_measures m prefix suffix bytes ->
  good_table blk t -> name <> $"CONTAINER" -> (3 <= fuel)%nat ->
  exists rows tail, parse_table_structure load bits fuel m name = Ok (rows, tail) /\
    colspecs rows = map (fun x => (fst x, fst x + snd x)) (table_cells (opt0 prefix) t).
Proof.
  intros. destruct (table_read load bits fuel m name t blk bb prefix suffix bytes) as (rows & tail & E & Hc & _); auto.
  exists rows, tail. split; [exact E|]. rewrite <- Hc, map_map. reflexivity.
Qed.
Print Assumptions C25_text_ranges.
Lemma fold_max l z : fold_left Z.max l z = Z.max z (fold_left Z.max l z) /\ forall x, In x l -> x <= fold_left Z.max l z.
Proof.
  revert z. induction l as [|y l IH]; intros z; cbn [fold_left].
  - split; [lia|easy].
  - destruct (IH (Z.max z y)) as [H1 H2]. split; [lia|]. intros x [<-|Hx]; [lia|auto].
Qed.
Lemma fold_max_le l z b : z <= b -> Forall (fun x => x <= b) l -> fold_left Z.max l z <= b.
Proof. intros Hz H. revert z Hz. induction H; intros z Hz; cbn [fold_left]; [exact Hz|]. apply IHForall. lia. Qed.
Lemma fold_max_eq l b : 0 <= b -> Forall (fun x => x <= b) l -> In b l -> fold_left Z.max l 0 = b.
Proof. intros H0 HF Hin. assert (H1 := proj2 (fold_max l 0) b Hin). assert (H2 := fold_max_le l 0 b H0 HF). lia. Qed.
(** The row is ROW_BYTES (and ROW_SUFFIX_BYTES) long. *)
Lemma row_length load bits fuel m name t blk bb suffix bytes c :
  says_table m t -> named m blk -> may_hold m $"BYTES" bb -> row_measures m None suffix (Some bytes) ->
  good_table blk t -> name <> $"CONTAINER" -> (3 <= fuel)%nat -> last_column_ends t c ->
  0 <= column_end c <= bytes + opt0 suffix ->
  exists rows tail, parse_table_structure load bits fuel m name = Ok (rows, tail) /\
    map cell_of rows = table_cells 0 t /\ dtype_itemsize (rows, tail) = bytes + opt0 suffix.
Proof.
  intros Hs Hn Hb Hm Hg Hc Hf ((t' & ->) & Hi & Hends) Hend.
  destruct (table_read load bits fuel m name (t' ++ [Column c]) blk bb None suffix (Some bytes)) as (rows & tail & E & Hcells & Ht & _ & _ & _ & _ & Hr & _); auto.
  exists rows, tail. split; [exact E|]. split; [exact Hcells|]. cbn [opt0] in Hcells.
  (* the last row *)
  assert (Hlast : exists front o, rows = front ++ [o] /\ o_off o = c_start c - 1 /\ r_bytes (o_row o) = c_bytes c).
  { assert (Ec : table_cells 0 (t' ++ [Column c]) = table_cells 0 t' ++ [(0 + (c_start c - 1), c_bytes c)]).
    { unfold table_cells, table_places. rewrite !flat_map_app. cbn [flat_map places fst snd app]. unfold column_cells. rewrite Hi. now rewrite app_nil_r. }
    rewrite Ec in Hcells. destruct rows as [|o front _] using rev_ind; [destruct (table_cells 0 t'); discriminate|].
    rewrite map_app in Hcells. cbn [map] in Hcells. apply app_inj_tail in Hcells as [_ Hcells]. unfold cell_of in Hcells. injection Hcells as Ho Hw.
    exists front, o. split; [reflexivity|]. split; [lia|].
    destruct Hr as (ll & El & HF). apply Forall2_app_inv_l in HF as (a & b & _ & HF & ->). inversion HF as [|e0 l x0 y0 Hlc Hnil E1 E2]; subst. destruct Hlc as [Hl Hcore]. inversion Hnil; subst.
    unfold count in Hl. rewrite Hi in Hl. destruct l as [|r [|? ?]]; try discriminate. rewrite concat_app in El. cbn [List.concat app] in El.
    rewrite map_app in El. cbn [map] in El. apply app_inj_tail in El as [_ <-]. match goal with H : Forall (core_is _ _) _ |- _ => apply Forall_inv in H; destruct H as (_ & _ & HB & _); exact HB end. }
  destruct Hlast as (front & o & -> & Ho & Hby).
  unfold tail_row in Ht. rewrite rev_app_distr in Ht. cbn [rev app i_bytes i_suffix] in Ht. rewrite Ho, Hby in Ht.
  unfold column_end in *. unfold dtype_itemsize. cbn [fst snd].
  assert (Emap : map (fun o => o_off o + cell_width (o_row o)) (front ++ [o]) = map (fun x => fst x + snd x) (table_cells 0 (t' ++ [Column c]))).
  { rewrite <- Hcells, map_map. reflexivity. }
  rewrite Emap. set (ends := map (fun x => fst x + snd x) (table_cells 0 (t' ++ [Column c]))).
  assert (HF : Forall (fun x => x <= c_start c - 1 + c_bytes c) ends) by (apply Forall_map; exact Hends).
  assert (Hin : In (c_start c - 1 + c_bytes c) ends).
  { unfold ends, table_cells, table_places. rewrite !flat_map_app, map_app. apply in_app_iff. right.
    cbn [flat_map places fst snd app]. unfold column_cells. rewrite Hi. cbn. now left. }
  clearbody ends. destruct (0 <? bytes - (c_start c - 1 + c_bytes c) + opt0 suffix) eqn:Ep; injection Ht as <-.
  - apply fold_max_eq; [lia| |].
    + apply Forall_app. split; [eapply Forall_impl; [|exact HF]; cbn; lia|]. constructor; [lia|constructor].
    + apply in_app_iff. right. left. lia.
  - apply Z.ltb_ge in Ep. rewrite app_nil_r. replace (bytes + opt0 suffix) with (c_start c - 1 + c_bytes c) by lia.
    apply fold_max_eq; [lia|exact HF|exact Hin].
Qed.
Theorem C25_row_length : forall load bits fuel m name t blk bb suffix bytes c,
  says_table m t -> named m blk -> may_hold m $"BYTES" bb -> row_measures m None suffix (Some bytes) ->
  good_table blk t -> name <> $"CONTAINER" -> (3 <= fuel)%nat -> last_column_ends t c ->
  0 <= column_end c <= bytes + opt0 suffix ->
  exists rows tail, parse_table_structure load bits fuel m name = Ok (rows, tail) /\
    map (fun o => (o_off o, cell_width (o_row o))) rows = table_cells 0 t /\ dtype_itemsize (rows, tail) = bytes + opt0 suffix.
Proof. exact row_length. Qed.
Print Assumptions C25_row_length.
(** so each row's cells are the bytes the label says, in every row of a binary table;
    of a file that ends early, ordinary or compressed, the complete rows are read *)
Lemma concat_at (rows : list (list ascii)) L : Forall (fun r => List.length r = L) rows -> forall k row, nth_error rows k = Some row ->
  forall pre post o w, (o + w <= L)%nat -> firstn w (skipn (List.length pre + k * L + o) (pre ++ concat rows ++ post)) = firstn w (skipn o row).
Proof.
  intros H. induction H as [|r rows Hr H IH]; intros k row Hk pre post o w Ho; [destruct k; discriminate Hk|].
  destruct k as [|k]; cbn [nth_error concat] in *.
  - injection Hk as <-. rewrite Nat.mul_0_l, Nat.add_0_r. rewrite <- app_assoc.
    rewrite skipn_app, skipn_all2 by lia. replace (List.length pre + o - List.length pre)%nat with o by lia. cbn [app].
    rewrite skipn_app. replace (o - List.length r)%nat with 0%nat by lia. rewrite firstn_app, skipn_length.
    replace (w - (List.length r - o))%nat with 0%nat by lia. now rewrite firstn_O, app_nil_r.
  - specialize (IH k row Hk (pre ++ r) post o w Ho). rewrite app_length, Hr in IH.
    replace (List.length pre + S k * L + o)%nat with (List.length pre + L + k * L + o)%nat by lia.
    rewrite <- IH. now rewrite <- !app_assoc.
Qed.
Lemma map_seq_nth {A B} (l : list A) (g : nat -> B) (f : A -> B) : (forall k x, nth_error l k = Some x -> g k = f x) -> map g (seq 0 (List.length l)) = map f l.
Proof.
  revert g. induction l as [|x l IH]; intros g H; [reflexivity|]. cbn [List.length seq map]. f_equal; [now apply H|].
  rewrite <- seq_shift, map_map. apply IH. intros k y Hy. now apply H.
Qed.
Lemma concat_len (rows : list (list ascii)) L : Forall (fun r => List.length r = L) rows -> List.length (concat rows) = (List.length rows * L)%nat.
Proof. induction 1 as [|r rows Hr H IH]; [reflexivity|]. cbn [concat List.length]. rewrite app_length, IH. lia. Qed.
Theorem C25_cells : forall load bits fuel m name t blk bb suffix bytes c mem pre rows post count,
  says_table m t -> named m blk -> may_hold m $"BYTES" bb -> row_measures m None suffix (Some bytes) ->
  good_table blk t -> name <> $"CONTAINER" -> (3 <= fuel)%nat -> last_column_ends t c ->
  0 <= column_end c <= bytes + opt0 suffix -> 0 < bytes + opt0 suffix ->
  Forall (fun x => 0 <= fst x /\ 0 <= snd x) (table_cells 0 t) ->
  Forall (fun row => Z.of_nat (List.length row) = bytes + opt0 suffix) rows ->
  (count = List.length rows \/ (List.length rows < count)%nat /\ post = []) ->
  exists r, parse_table_structure load bits fuel m name = Ok r /\
    read_binary mem (pre ++ concat rows ++ post) (List.length pre) count r =
    Ok (map (fun row => map (fun x => firstn (Z.to_nat (snd x)) (skipn (Z.to_nat (fst x)) row)) (table_cells 0 t)) rows).
Proof.
  intros load bits fuel m name t blk bb suffix bytes c mem pre rows post count Hs Hn Hb Hm Hg Hna Hf Hl He Hp Hnn Hrows Hcount.
  destruct (row_length load bits fuel m name t blk bb suffix bytes c Hs Hn Hb Hm Hg Hna Hf Hl He) as (fr & tail & E & Hc & Hw).
  exists (fr, tail). split; [exact E|]. clear E Hs Hn Hb Hm Hg Hna Hf load bits fuel name.
  unfold read_binary. rewrite Hw. set (W := bytes + opt0 suffix) in *. cbn [fst]. set (L := Z.to_nat W).
  assert (Hrows' : Forall (fun row => List.length row = L) rows) by (eapply Forall_impl; [|exact Hrows]; intros row Hr; cbv beta in *; lia).
  assert (HL : (0 < L)%nat) by lia.
  rewrite skipn_app, skipn_all, Nat.sub_diag. change (skipn 0 (concat rows ++ post)) with (concat rows ++ post). cbn [app].
  assert (En : (if mem then
      (if (List.length (firstn (count * L) (concat rows ++ post)) mod L =? 0)%nat then Ok (List.length (firstn (count * L) (concat rows ++ post)) / L)%nat else Err ValueError)
      else Ok (Nat.min count (List.length (concat rows ++ post) / L))) = Ok (List.length rows)).
  { pose proof (concat_len rows L Hrows') as Hlen. destruct mem.
    - assert (El : List.length (firstn (count * L) (concat rows ++ post)) = (List.length rows * L)%nat).
      { rewrite firstn_length, app_length, Hlen. destruct Hcount as [-> |[Hlt ->]]; cbn [List.length]; nia. }
      rewrite El. rewrite Nat.mod_mul by lia. change (0 =? 0)%nat with true. cbn iota. now rewrite Nat.div_mul by lia.
    - f_equal. rewrite app_length, Hlen. destruct Hcount as [-> |[Hlt ->]].
      + apply Nat.min_l. apply Nat.div_le_lower_bound; lia.
      + cbn [List.length]. rewrite Nat.add_0_r, Nat.div_mul by lia. lia. }
  cbv zeta. rewrite En. cbn [rbind]. f_equal. apply map_seq_nth. intros k row Hk.
  rewrite <- Hc, map_map. apply map_ext_in. intros o Ho. cbn [fst snd]. unfold cell_bytes.
  assert (Hx : In (o_off o, cell_width (o_row o)) (table_cells 0 t)) by (rewrite <- Hc; apply in_map_iff; now exists o).
  destruct Hl as (_ & _ & Hends). rewrite Forall_forall in Hends, Hnn. pose proof (Hends _ Hx) as B1. pose proof (Hnn _ Hx) as B2. cbn [fst snd] in B1, B2.
  replace (Z.to_nat (Z.of_nat (List.length pre) + Z.of_nat k * W + o_off o)) with (List.length pre + k * L + Z.to_nat (o_off o))%nat.
  2:{ unfold L. rewrite !Z2Nat.inj_add, Z2Nat.inj_mul, !Nat2Z.id by lia. reflexivity. }
  apply (concat_at rows L Hrows'); [exact Hk|]. unfold L, cell_of. cbn [fst snd]. lia.
Qed.
Print Assumptions C25_cells.
(** a bad label is refused *)
Theorem C25_overlapping_items_refused : forall info r d w, r_item_offset r = Some d -> r_item_bytes r = Some w -> d < w ->
  compute_offsets info [r] = Err ValueError.
Proof.
  intros info r d w Hd Hw Hlt. unfold compute_offsets.
  assert (E : item_offsets (map (fun r => mkO r (r_start r - 1 + opt0 (i_prefix info)) (r_reps r)) [r]) = Err ValueError).
  { unfold item_offsets. cbn [map existsb o_row]. rewrite Hw. cbn [orb]. unfold sized. cbn [rmap o_row]. unfold item_size. rewrite Hd, Hw.
    now rewrite (proj2 (Z.ltb_lt d w) Hlt). }
  cbn [map filter] in *. destruct (negb _); cbn [map uniq filter blocks_loop rbind]; rewrite E; reflexivity.
Qed.
Print Assumptions C25_overlapping_items_refused.

(** A non-trivial table: a column of three items 6 bytes apart, then a container repeated twice, then a column. *)
Definition ex_column (n : str) (s b : Z) (more : multidict) : str * pv :=
  ($"COLUMN", PMulti ([($"NAME", PStr n); ($"START_BYTE", PInt s); ($"BYTES", PInt b)] ++ more)).
Definition ex_label : multidict :=
  [($"ROWS", PInt 10); ($"ROW_BYTES", PInt 40); ex_column $"A" 1 2 [];
   ex_column $"B" 3 16 [($"ITEMS", PInt 3); ($"ITEM_BYTES", PInt 4); ($"ITEM_OFFSET", PInt 6)];
   ($"CONTAINER", PMulti [($"NAME", PStr $"C"); ($"START_BYTE", PInt 19); ($"BYTES", PInt 6); ($"REPETITIONS", PInt 2);
      ex_column $"X" 1 2 []; ex_column $"Y" 3 4 []]);
   ex_column $"D" 32 6 []].
Definition ex_table : list element :=
  [Column (mkCol $"A" 1 2 None None None None); Column (mkCol $"B" 3 16 (Some (3, 4, Some 6)) None None None);
   Container $"C" 19 6 2 [mkCol $"X" 1 2 None None None None; mkCol $"Y" 3 4 None None None None]; Column (mkCol $"D" 32 6 None None None None)].
Ltac not_in := cbn; intros HIN; repeat (destruct HIN as [HIN|HIN]; [discriminate|]); exact HIN.
Ltac not_ptr := let H := fresh in intros H; apply is_structure_iff in H; discriminate.
Ltac a_column := split; [cbn; tauto|]; eexists; split; [reflexivity|]; unfold says_column, holds, lacks, may_hold; cbn; repeat split; auto.
Example C25_meets : says_table ex_label ex_table /\ good_table None ex_table /\ row_measures ex_label None None (Some 40) /\
  last_column_ends ex_table (mkCol $"D" 32 6 None None None None) /\
  table_cells 0 ex_table = [(0, 2); (2, 4); (8, 4); (14, 4); (18, 2); (20, 4); (24, 2); (26, 4); (31, 6)] /\
  exists rows, parse_table_structure ex_load (fun f _ => Ok f) 5 ex_label $"TABLE" = Ok (rows, Some (37, 3)) /\
    map (fun o => r_name (o_row o)) rows = [$"A"; $"B_0"; $"B_1"; $"B_2"; $"X_0"; $"Y_0"; $"X_1"; $"Y_1"; $"D"].
Proof.
  split; [|split; [|split; [|split; [|split]]]].
  - split; [|reflexivity]. unfold ex_label, ex_table.
    apply other_item; [not_in|not_ptr|]. apply other_item; [not_in|not_ptr|].
    apply part_item; [cbn; tauto|a_column|]. apply part_item; [cbn; tauto|a_column|].
    apply part_item; [cbn; tauto| |].
    { split; [cbn; tauto|]. eexists. split; [reflexivity|]. repeat (split; [reflexivity|]).
      do 4 (apply other_item; [not_in|not_ptr|]). apply part_item; [cbn; tauto|a_column|]. apply part_item; [cbn; tauto|a_column|]. constructor. }
    apply part_item; [cbn; tauto|a_column|]. constructor.
  - unfold good_table, ex_table. split; [|split; [|split; [|split]]].
    + eexists _, _. split; [reflexivity|]. apply adj_column. apply adj_container; [vm_compute; reflexivity|cbn; lia|]. apply adj_column. constructor.
    + assert (Hcol : forall n s b i, (forall rest, n <> $"PLACEHOLDER" ++ rest) -> match i with None => True | Some (n, w, d) => 1 <= n /\ w <= item_step w d end -> good_column (mkCol n s b i None None None)) by (intros; split; assumption).
      repeat constructor; try (intros; discriminate); try (cbn; lia); try easy.
      intros (a & b & E). apply (f_equal (@List.length _)) in E. rewrite app_length in E. cbn in E. lia.
    + cbn. repeat constructor. easy.
    + discriminate.
    + vm_compute. repeat constructor.
  - repeat split; reflexivity.
  - split; [eexists [_; _; _]; reflexivity|]. split; [reflexivity|]. vm_compute. repeat constructor; discriminate.
  - vm_compute. reflexivity.
  - eexists. split; vm_compute; reflexivity.
Qed.

(** *** Where the label is not followed *)
Definition offsets_of (r : res (list orow * option (Z * Z))) : option (list (Z * Z)) :=
  match r with Ok (rows, _) => Some (map cell_of rows) | Err _ => None end.
Definition read_ex (m : multidict) : res (list orow * option (Z * Z)) := parse_table_structure ex_load (fun f _ => Ok f) 5 m $"TABLE".
(** A last column of two items of 4 bytes in a row of 10: rows are taken to be 8 bytes long. *)
Theorem C25_row_short_refuted : exists m c t, says_table m t /\ good_table None t /\ row_measures m None None (Some 10) /\
  t = [Column c] /\ column_end c = 8 /\
  exists r, read_ex m = Ok r /\ dtype_itemsize r = 8.
Proof.
  exists [($"ROW_BYTES", PInt 10); ex_column $"A" 1 8 [($"ITEMS", PInt 2); ($"ITEM_BYTES", PInt 4)]], (mkCol $"A" 1 8 (Some (2, 4, None)) None None None),
    [Column (mkCol $"A" 1 8 (Some (2, 4, None)) None None None)].
  split; [split; [|reflexivity]; apply other_item; [not_in|not_ptr|]; apply part_item; [cbn; tauto|a_column|constructor]|].
  split.
  { split; [eexists _, _; split; [reflexivity|constructor]|]. split; [repeat constructor; try (intros; discriminate); cbn; lia|].
    split; [constructor|]. split; [discriminate|]. vm_compute. repeat constructor. }
  split; [repeat split; reflexivity|]. split; [reflexivity|]. split; [reflexivity|]. eexists. split; vm_compute; reflexivity.
Qed.
Print Assumptions C25_row_short_refuted.
(** With ROW_PREFIX_BYTES the padding is too short by the prefix: a row of 4 + 8 + 0 bytes is read as 10. *)
Theorem C25_prefix_row_short_refuted : exists m r, row_measures m (Some 4) None (Some 8) /\ read_ex m = Ok r /\
  map cell_of (fst r) = [(4, 6)] /\ dtype_itemsize r = 10.
Proof.
  exists [($"ROW_PREFIX_BYTES", PInt 4); ($"ROW_BYTES", PInt 8); ex_column $"A" 1 6 []]. eexists. split; [repeat split; reflexivity|].
  split; [vm_compute; reflexivity|]. split; vm_compute; reflexivity.
Qed.
Print Assumptions C25_prefix_row_short_refuted.
(** Two multi-item columns listed in the other order: their items are exchanged and mixed up. *)
Theorem C25_item_order_refuted : exists m t, says_table m t /\ Forall good_element t /\
  table_cells 0 t = [(4, 2); (6, 2); (0, 1); (1, 1); (2, 1); (3, 1)] /\
  offsets_of (read_ex m) = Some [(0, 2); (2, 2); (4, 1); (6, 1); (4, 1); (5, 1)].
Proof.
  exists [ex_column $"B" 5 4 [($"ITEMS", PInt 2); ($"ITEM_BYTES", PInt 2)]; ex_column $"A" 1 4 [($"ITEMS", PInt 4); ($"ITEM_BYTES", PInt 1)]],
    [Column (mkCol $"B" 5 4 (Some (2, 2, None)) None None None); Column (mkCol $"A" 1 4 (Some (4, 1, None)) None None None)].
  split; [split; [|reflexivity]; apply part_item; [cbn; tauto|a_column|]; apply part_item; [cbn; tauto|a_column|constructor]|].
  split; [repeat constructor; try (intros; discriminate); cbn; lia|]. split; vm_compute; reflexivity.
Qed.
Print Assumptions C25_item_order_refuted.
Definition ex_container (n : str) (s b r : Z) (cols : multidict) : str * pv :=
  ($"CONTAINER", PMulti ([($"NAME", PStr n); ($"START_BYTE", PInt s); ($"BYTES", PInt b); ($"REPETITIONS", PInt r)] ++ cols)).
Ltac a_container := split; [cbn; tauto|]; eexists; split; [reflexivity|]; repeat (split; [reflexivity|]);
  do 4 (apply other_item; [not_in|not_ptr|]); repeat (apply part_item; [cbn; tauto|a_column|]); constructor.
(** A container after a gap: its columns are read from the gap. *)
Theorem C25_gap_before_container_refuted : exists m t, says_table m t /\ Forall good_element t /\
  table_cells 0 t = [(0, 2); (10, 3)] /\ offsets_of (read_ex m) = Some [(0, 2); (2, 3)].
Proof.
  exists [ex_column $"A" 1 2 []; ex_container $"C" 11 3 1 [ex_column $"X" 1 3 []]],
    [Column (mkCol $"A" 1 2 None None None None); Container $"C" 11 3 1 [mkCol $"X" 1 3 None None None None]].
  split; [split; [|reflexivity]; apply part_item; [cbn; tauto|a_column|]; apply part_item; [cbn; tauto|a_container|constructor]|].
  split; [|split; vm_compute; reflexivity].
  repeat constructor; try (intros; discriminate); try (cbn; lia); try easy.
  intros (a & b & E). apply (f_equal (@List.length _)) in E. rewrite app_length in E. cbn in E. lia.
Qed.
Print Assumptions C25_gap_before_container_refuted.
(** A table that begins with a repeated container: all repetitions are read from the first. *)
Theorem C25_container_first_refuted : exists m t, says_table m t /\ Forall good_element t /\
  table_cells 0 t = [(0, 3); (3, 3)] /\ offsets_of (read_ex m) = Some [(0, 3); (0, 3)].
Proof.
  exists [ex_container $"C" 1 3 2 [ex_column $"X" 1 3 []]], [Container $"C" 1 3 2 [mkCol $"X" 1 3 None None None None]].
  split; [split; [|reflexivity]; apply part_item; [cbn; tauto|a_container|constructor]|].
  split; [|split; vm_compute; reflexivity].
  repeat constructor; try (intros; discriminate); try (cbn; lia); try easy.
  intros (a & b & E). apply (f_equal (@List.length _)) in E. rewrite app_length in E. cbn in E. lia.
Qed.
Print Assumptions C25_container_first_refuted.
(** A repeated container right after a repeated container: its columns are scattered. *)
Theorem C25_adjacent_containers_refuted : exists m t, says_table m t /\ Forall good_element t /\
  table_cells 0 t = [(0, 1); (1, 1); (2, 1); (3, 1); (4, 1); (5, 1); (6, 1)] /\
  offsets_of (read_ex m) = Some [(0, 1); (1, 1); (2, 1); (3, 1); (6, 1); (7, 1); (10, 1)].
Proof.
  exists [ex_column $"A" 1 1 []; ex_container $"C" 2 1 2 [ex_column $"X" 1 1 []]; ex_container $"D" 4 2 2 [ex_column $"Y" 1 1 []; ex_column $"Z" 2 1 []]],
    [Column (mkCol $"A" 1 1 None None None None); Container $"C" 2 1 2 [mkCol $"X" 1 1 None None None None]; Container $"D" 4 2 2 [mkCol $"Y" 1 1 None None None None; mkCol $"Z" 2 1 None None None None]].
  split; [split; [|reflexivity]; apply part_item; [cbn; tauto|a_column|]; apply part_item; [cbn; tauto|a_container|]; apply part_item; [cbn; tauto|a_container|constructor]|].
  split; [|split; vm_compute; reflexivity].
  repeat constructor; try (intros; discriminate); try (cbn; lia); try easy;
  intros (a & b & E); apply (f_equal (@List.length _)) in E; rewrite app_length in E; cbn in E; lia.
Qed.
Print Assumptions C25_adjacent_containers_refuted.
