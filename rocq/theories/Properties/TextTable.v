(** C77, C78: the values of PDS3 tables of text. *)
From Coq Require Import QArith Qabs Lia ZArith.
From Verif.Base Require Import Py PyFacts Val Numpy Float.
From Verif.Model Require Import Types Scaling Pds4Types Pds4Values Table Position Array Pds4Frame TableValues TextTable.
From Verif.Spec Require Import Types Pds4Values Array Table TableValues TextTable.
From Verif.Spec Require Scaling.
From Verif.Proofs Require Files Scaling.
From Verif.Proofs Require Import Pds4Frame Table TableLabel TableValues TextTable.
From Verif.Properties Require Import Table TableValues.
From Verif.Spec Require Import Table TableValues TextTable.
From Verif.Proofs Require Import Table TableValues TextTable.
Open Scope Z_scope.

(** ** The label of a text table *)
Lemma has_field_in k f fields : In f fields -> dict_get f k <> None -> has_field k fields = true.
Proof. intros Hf H. apply existsb_exists. exists f. split; [exact Hf|]. rewrite dict_has_eq. now destruct (dict_get f k). Qed.
Lemma row_start f r : row_of_field f = Ok r -> dict_get f $"START_BYTE" <> None.
Proof.
  unfold row_of_field. intros H X. destruct (match dict_get f $"NAME" with Some (PStr s) => Ok s | _ => Err TypeError end); [|discriminate]. cbn [rbind] in H.
  destruct (match dict_get f $"BLOCK_NAME" with Some (PStr s) => Ok (Some s) | None | Some PNone => Ok None | _ => Err TypeError end); [|discriminate]. cbn [rbind] in H.
  unfold opt_int in H. rewrite X in H. discriminate H.
Qed.
Lemma row_type f r : row_of_field f = Ok r -> dict_get f $"DATA_TYPE" = r_type r.
Proof.
  unfold row_of_field. intros H.
  repeat match type of H with (do _ <- ?e; _) = Ok _ => destruct e; [cbn [rbind] in H|discriminate H] end. injection H as <-. reflexivity.
Qed.
Lemma row_has_bytes f r : row_of_field f = Ok r -> r_item_bytes r = None -> dict_get f $"BYTES" <> None.
Proof.
  unfold row_of_field. intros H Hi X. unfold opt_int at 2 in H. rewrite X in H.
  destruct (match dict_get f $"NAME" with Some (PStr s) => Ok s | _ => Err TypeError end); [|discriminate]. cbn [rbind] in H.
  destruct (match dict_get f $"BLOCK_NAME" with Some (PStr s) => Ok (Some s) | None | Some PNone => Ok None | _ => Err TypeError end); [|discriminate]. cbn [rbind] in H.
  destruct (opt_int f $"START_BYTE") as [[]|]; cbn [rbind] in H; try discriminate.
  destruct (opt_int f $"ITEMS") as [items|]; cbn [rbind] in H; [|discriminate].
  destruct (opt_int f $"ITEM_BYTES") as [ib|]; cbn [rbind] in H; [|discriminate].
  destruct (opt_int f $"ITEM_OFFSET") as [io|]; cbn [rbind] in H; [|discriminate].
  destruct items, ib; cbn [rbind] in H; try discriminate.
  repeat match type of H with (do _ <- ?e; _) = Ok _ => destruct e; [cbn [rbind] in H|discriminate H] end. injection H as <-. discriminate Hi.
Qed.
Lemma rmap_in {A B} (f : A -> res B) l out y : rmap f l = Ok out -> In y out -> exists x, In x l /\ f x = Ok y.
Proof.
  revert out. induction l as [|x l IH]; intros out E Hy; cbn [rmap] in E; [injection E as <-; contradiction|].
  destruct (f x) as [z|] eqn:Ex; [|discriminate]. cbn [rbind] in E. destruct (rmap f l) as [zs|]; [|discriminate]. cbn [rbind] in E. injection E as <-.
  destruct Hy as [<-|Hy]; [exists x; split; [now left|exact Ex]|]. destruct (IH zs eq_refl Hy) as (x' & H1 & H2). exists x'. split; [now right|exact H2].
Qed.
Lemma structure_read load bits fuel m name t blk bb prefix suffix bytes c t' :
  says_table m t -> named m blk -> may_hold m $"BYTES" bb -> row_measures m prefix suffix bytes ->
  good_table blk t -> name <> $"CONTAINER" -> (3 <= fuel)%nat -> t = t' ++ [Column c] -> c_items c = None ->
  let cols := table_columns (opt0 prefix) t in
  let rest := row_rest c prefix suffix bytes in
  text_block m name (map (fun x => c_type (fst x)) cols) ->
  exists rows tail, parse_text_structure load bits fuel m name =
      Ok (Some (mkTF rows tail (Positions (map spec_of (row_spans cols (opt0 prefix + column_end c) rest))))) /\
    (match tail with Some _ => 0 < rest | None => rest <= 0 end) /\
    map (fun o => row_keys (o_row o)) rows = map (fun x => col_keys (fst x)) cols /\
    exists nm, map fst nm = map (fun x => c_name (fst x)) cols /\ map (fun o => r_name (o_row o)) rows = reindex_names nm.
Proof.
  intros Hs Hn Hb Hm Hg Hc Hf Et Hi cols rest HT.
  destruct (table_read load bits fuel m name t blk bb prefix suffix bytes) as (rows & tail & E & Hcells & Ht & fields & nd & Ef & Hfs & Hrs & Hnames); auto.
  destruct (rows_along load bits fuel m name t blk bb prefix suffix bytes Hs Hn Hb Hm Hg Hc Hf) as (rows' & tail' & E' & _ & Hc' & Hk & Hby & nm & Hnm & Hnames').
  rewrite E in E'. injection E' as <- <-. exists rows, tail. fold cols in Hc', Hk, Hby, Hnm.
  unfold parse_table_structure in E. rewrite Ef in E. cbn [rbind fst] in E. rewrite (row_info_of _ _ _ _ Hm) in E. cbn [rbind] in E.
  destruct (rows_of_fields _ _ _ Hfs ltac:(apply Hg)) as (frows & Er & Hr & Hnp & _). rewrite Er in E. cbn [rbind] in E.
  destruct (compute_table (mkI prefix suffix bytes) blk bb t frows Hr Hg Hnp) as (out & tl & Eo & _ & _ & Ho). rewrite Eo in E. injection E as -> ->.
  assert (FR : forall o, In o rows -> exists f, In f (reindexed fields) /\ row_of_field f = Ok (o_row o)).
  { intros o Hin. apply (rmap_in _ _ _ _ Er). rewrite <- Ho. now apply in_map. }
  (* the last row *)
  assert (HL : exists front o, rows = front ++ [o] /\ cell_of o = (opt0 prefix + (c_start c - 1), c_bytes c) /\ r_bytes (o_row o) = c_bytes c /\ r_item_bytes (o_row o) = None).
  { assert (Ec : cols = table_columns (opt0 prefix) t' ++ [(c, (opt0 prefix + (c_start c - 1), c_bytes c))]).
    { unfold cols, table_columns, table_places. rewrite Et, !flat_map_app. cbn [flat_map places fst snd app]. unfold column_cells. now rewrite Hi. }
    assert (HI : map (fun o => r_item_bytes (o_row o)) rows = map (fun x => fst (item_fields (fst x))) cols).
    { rewrite <- (map_map o_row r_item_bytes). apply (along_table r_item_bytes (fun c => fst (item_fields c)) (blk, 1, bb)). eapply shape_imp; [|exact Hrs].
      intros cx c' r (_ & _ & _ & K & _). now rewrite <- K. }
    rewrite Ec in Hc', Hby, HI. destruct rows as [|o front _] using rev_ind; [destruct (table_columns (opt0 prefix) t'); discriminate|]. exists front, o. split; [reflexivity|].
    rewrite !map_app in Hc', Hby, HI. cbn [map fst snd] in Hc', Hby, HI. apply app_inj_tail in Hc' as [_ X1]. apply app_inj_tail in Hby as [_ X2]. apply app_inj_tail in HI as [_ X3].
    split; [exact X1|]. split; [exact X2|]. rewrite X3. unfold item_fields. now rewrite Hi. }
  destruct HL as (front & o & Erows & X1 & X2 & X3). unfold cell_of in X1. injection X1 as Y1 Y2.
  assert (Etail : tail = if 0 <? rest then Some (opt0 prefix + column_end c, rest) else None).
  { unfold tail_row in Ht. rewrite Erows, rev_app_distr in Ht. cbn [rev app i_bytes i_suffix] in Ht. rewrite Y1, X2 in Ht. injection Ht as <-. unfold rest, row_rest, column_end.
    replace (opt0 prefix + (c_start c - 1) + c_bytes c) with (opt0 prefix + (c_start c - 1 + c_bytes c)) by lia. reflexivity. }
  assert (HinO : In o rows) by (rewrite Erows; apply in_elt).
  destruct (FR o HinO) as (f & Hf1 & Hf2).
  assert (B : has_field $"BYTES" (reindexed fields) = true) by (eapply has_field_in; [exact Hf1|eapply row_has_bytes; eassumption]).
  assert (SB : has_field $"START_BYTE" (reindexed fields) = true) by (eapply has_field_in; [exact Hf1|eapply row_start; eassumption]).
  assert (TY : forall ty, In (Some ty) (map (fun x => c_type (fst x)) cols) -> exists f, In f (reindexed fields) /\ dict_get f $"DATA_TYPE" = Some (PStr ty)).
  { intros ty Hty. apply in_map_iff in Hty as (x & Ex & Hx). assert (K : In (col_keys (fst x)) (map (fun o => row_keys (o_row o)) rows)) by (rewrite Hk; exact (in_map (fun x => col_keys (fst x)) cols x Hx)).
    apply in_map_iff in K as (o' & K & Ho'). destruct (FR o' Ho') as (f' & Hf' & Rf). exists f'. split; [exact Hf'|]. rewrite (row_type _ _ Rf). unfold row_keys, col_keys in K. injection K as K _ _. now rewrite K, Ex. }
  assert (DT : has_field $"DATA_TYPE" (reindexed fields) = true).
  { assert (X : exists ty, In (Some ty) (map (fun x => c_type (fst x)) cols)) by (destruct HT as [(ty & X & _)|[X _]]; eauto). destruct X as (ty & X). destruct (TY ty X) as (f' & H1 & H2).
    eapply has_field_in; [exact H1|]. rewrite H2. discriminate. }
  assert (TX : existsb ascii_typed (reindexed fields) || looks_like_ascii m name = true).
  { apply orb_true_iff. destruct HT as [(ty & X & M)|(_ & M)].
    - left. destruct (TY ty X) as (f' & H1 & H2). apply existsb_exists. exists f'. split; [exact H1|]. unfold ascii_typed. rewrite H2. now apply contains_iff.
    - right. unfold looks_like_ascii. destruct M as [M|[M| ->]]; [|now rewrite (proj2 (contains_iff _ _) M), orb_true_r|now rewrite orb_true_r].
      now rewrite (proj2 (contains_iff _ _) M). }
  split.
  - unfold parse_text_structure. rewrite Ef. cbn [rbind fst]. rewrite B, SB, DT, TX. cbn [andb negb]. rewrite (row_info_of _ _ _ _ Hm). cbn [rbind]. rewrite Er. cbn [rbind]. rewrite Eo. cbn [rbind fst snd].
    do 4 f_equal. unfold row_spans. rewrite map_app. f_equal.
    + unfold colspecs. rewrite <- Hc', map_map. apply map_ext. intros o'. reflexivity.
    + rewrite Etail. destruct (0 <? rest); reflexivity.
  - split; [rewrite Etail; destruct (0 <? rest) eqn:P; [now apply Z.ltb_lt|now apply Z.ltb_ge]|]. split; [exact Hk|]. exists nm. split; [exact Hnm|exact Hnames'].
Qed.
Lemma names_ok (rows : list orow) names nm : map fst nm = names -> map (fun o => r_name (o_row o)) rows = reindex_names nm -> Forall plain_name names ->
  NoDup (map (fun o => r_name (o_row o)) rows) /\
  (forall i o, nth_error rows i = Some o -> frame_name names i (r_name (o_row o))) /\
  (forall o, In o rows -> contains $"PLACEHOLDER" (r_name (o_row o)) = false).
Proof.
  intros Hnm Hnames' Hnames.
  assert (NM : forall i o, nth_error rows i = Some o -> frame_name names i (r_name (o_row o))).
  { intros i o Hi. rewrite <- Hnm. assert (X : nth_error (reindex_names nm) i = Some (r_name (o_row o))) by (rewrite <- Hnames', nth_error_map, Hi; reflexivity).
    assert (Y : exists n s, nth_error nm i = Some (n, s)).
    { destruct (nth_error nm i) as [[n s]|] eqn:En; [eauto|]. apply nth_error_None in En. rewrite <- (C26_length_kept nm) in En. apply nth_error_None in En. congruence. }
    destruct Y as (n & s & Hns). apply (reindexed_name nm i n s); [exact Hns| |exact X].
    assert (Z : In n names) by (rewrite <- Hnm; apply (in_map fst _ (n, s)); eapply nth_error_In, Hns). rewrite Forall_forall in Hnames. now destruct (Hnames n Z) as (_ & W & _). }
  split; [|split; [exact NM|]].
  - rewrite Hnames'. apply C26_names_become_unique.
    + intros n s Hin. assert (X : In n (map fst nm)) by exact (in_map fst nm (n, s) Hin). rewrite Hnm in X. rewrite Forall_forall in Hnames. now apply Hnames.
    + intros s Hin. assert (X : In $"RESERVED" (map fst nm)) by exact (in_map fst nm ($"RESERVED", s) Hin). rewrite Hnm in X. rewrite Forall_forall in Hnames. now destruct (Hnames _ X) as (_ & Y & _).
  - intros o Ho. apply In_nth_error in Ho as [i Hi]. apply not_mentioned. eapply frame_plain; [exact Hnames|exact (NM i o Hi)].
Qed.
Lemma F2_third {A B} (R : A -> B -> Prop) l l' i x y : Forall2 R l l' -> nth_error l i = Some x -> nth_error l' i = Some y -> R x y.
Proof. intros H. revert i. induction H as [|a b l l' Hab _ IH]; intros [|i] E E'; try discriminate; [injection E as ->; injection E' as ->; exact Hab|]. now apply (IH i). Qed.
Lemma rmap_nth {A B} (f : A -> res B) (R : nat -> B -> Prop) l : (forall i x, nth_error l i = Some x -> exists y, f x = Ok y /\ R i y) ->
  exists out, rmap f l = Ok out /\ length out = length l /\ forall i y, nth_error out i = Some y -> R i y.
Proof.
  revert R. induction l as [|x l IH]; intros R H; [exists []; repeat split; intros [|i] y E; discriminate|].
  destruct (H 0%nat x eq_refl) as (y & Ey & Ry). destruct (IH (fun i => R (S i))) as (out & Eo & Lo & Ro); [intros i z Hz; exact (H (S i) z Hz)|].
  exists (y :: out). cbn [rmap]. rewrite Ey. cbn [rbind]. rewrite Eo. split; [reflexivity|]. split; [cbn; now rewrite Lo|].
  intros [|i] z E; [injection E as <-; exact Ry|now apply Ro].
Qed.
Lemma combine_inv {A B} (l : list A) (l' : list B) i a b : nth_error (combine l l') i = Some (a, b) -> nth_error l i = Some a /\ nth_error l' i = Some b.
Proof. revert l' i. induction l as [|x l IH]; intros [|y l'] [|i] H; try discriminate; [injection H as -> ->; auto|]. exact (IH l' i H). Qed.
Definition make_column (x : str * (coltype * list vcell)) : framecol := mkFC (fst x) (fst (snd x)) (snd (snd x)).
Section Finish.
Variable real : str -> option num.
Variable rounded : str -> Z -> num -> Prop.
Variable kept : str -> str -> Prop.
Lemma numbers_shown cells ty raw d : shows real rounded kept cells ty raw -> numbers real cells d -> ty = CT d /\ all_nums raw /\ Scaling.proper_type d.
Proof.
  assert (G : forall (R : str -> vcell -> Prop) vs, (forall s v, R s v -> exists x, v = VNum x) -> Forall2 R cells vs -> all_nums vs).
  { intros R vs HR H. induction H as [|s v l l' Hsv _ IH]; constructor; [exact (HR _ _ Hsv)|exact IH]. }
  intros S N. destruct N as [H|H H'|H H'].
  - destruct (if_ints _ _ _ _ _ _ S H) as [-> V]. split; [reflexivity|]. split; [|now right; right; right]. eapply G; [|exact V]. intros s v (z & _ & ->). eauto.
  - destruct (if_some_ints _ _ _ _ _ _ S H H') as [-> V]. split; [reflexivity|]. split; [|exact I]. eapply G; [|exact V]. intros s v [[_ ->]|(_ & z & r & _ & _ & ->)]; unfold cell_missing; eauto.
  - destruct (if_reals _ _ _ _ _ _ S H H') as [-> V]. split; [reflexivity|]. split; [|exact I]. eapply G; [|exact V]. intros s v [[_ ->]|(_ & r & _ & ->)]; unfold cell_missing; eauto.
Qed.
Lemma columns_scaled (rows : list orow) tail (cols : list (column * (Z * Z))) cellss tbl nm rest :
  map (fun o => row_keys (o_row o)) rows = map (fun x => col_keys (fst x)) cols ->
  (match tail with Some _ => 0 < rest | None => rest <= 0 end) ->
  let names := map (fun x => c_name (fst x)) cols in
  map fst nm = names -> map (fun o => r_name (o_row o)) rows = reindex_names nm -> Forall plain_name names ->
  let scales := factors c_scale cols (0 <? rest) in let shifts := factors c_shift cols (0 <? rest) in
  usable_factors scales -> usable_factors shifts ->
  Forall2 (fun cells c => shows real rounded kept cells (fst c) (snd c)) cellss tbl ->
  Forall2 (fun x cells => may_scale_text real scales shifts (fst x) cells) cols cellss ->
  exists frame, rmap (scale_column rows tail) (map make_column (combine (map (fun o => r_name (o_row o)) rows) tbl)) = Ok frame /\ length frame = length cols /\
    forall i x cells, nth_error cols i = Some x -> nth_error cellss i = Some cells -> exists col, nth_error frame i = Some col /\
      frame_name names i (k_name col) /\ column_from (shows real rounded kept) scales shifts (fst x) cells col.
Proof.
  intros Hk Htail names Hnm Hnames' Hnames scales shifts Us Ush Hsh Hsc.
  destruct (names_ok rows names nm Hnm Hnames' Hnames) as (ND & NM & NP).
  assert (LR : length rows = length cols) by (apply (f_equal (@length _)) in Hk; now rewrite !map_length in Hk).
  assert (LC := Forall2_length Hsc). assert (LT := Forall2_length Hsh).
  destruct (rmap_nth (scale_column rows tail) (fun i col => forall x cells, nth_error cols i = Some x -> nth_error cellss i = Some cells ->
      frame_name names i (k_name col) /\ column_from (shows real rounded kept) scales shifts (fst x) cells col)
    (map make_column (combine (map (fun o => r_name (o_row o)) rows) tbl))) as (frame & E & L & R).
  { intros i col Hi. rewrite nth_error_map in Hi. destruct (nth_error (combine _ tbl) i) as [[n [ty raw]]|] eqn:Ec; [|discriminate]. injection Hi as <-.
    apply combine_inv in Ec as [Ec Et]. rewrite nth_error_map in Ec. destruct (nth_error rows i) as [o|] eqn:Eo; [|discriminate]. injection Ec as <-.
    assert (X : exists x, nth_error cols i = Some x).
    { destruct (nth_error cols i) eqn:Ex; [eauto|]. apply nth_error_None in Ex. assert (i < length rows)%nat by (apply nth_error_Some; congruence). lia. }
    destruct X as [x Ex]. assert (X : exists cells, nth_error cellss i = Some cells).
    { destruct (nth_error cellss i) eqn:Ey; [eauto|]. apply nth_error_None in Ey. assert (i < length rows)%nat by (apply nth_error_Some; congruence). lia. }
    destruct X as [cells Ey]. pose proof (F2_third _ _ _ _ _ _ Hsh Ey Et) as S. cbn [fst snd] in S. pose proof (F2_third _ _ _ _ _ _ Hsc Ex Ey) as MS. cbv beta in MS.
    unfold scale_column, make_column. cbn [k_name fst snd]. rewrite (find_named (fun o => r_name (o_row o)) rows o ND) by (eapply nth_error_In, Eo).
    assert (KS : map (fun o => r_scale (o_row o)) rows ++ match tail with Some _ => [None] | None => [] end = scales).
    { unfold scales, factors. f_equal; [|destruct tail; [rewrite (proj2 (Z.ltb_lt _ _) Htail)|rewrite (proj2 (Z.ltb_ge _ _) Htail)]; reflexivity].
      transitivity (map (fun k : option pv * option pv * option pv => snd (fst k)) (map (fun o => row_keys (o_row o)) rows)); [now rewrite map_map|]. rewrite Hk, map_map. reflexivity. }
    assert (KO : map (fun o => r_shift (o_row o)) rows ++ match tail with Some _ => [None] | None => [] end = shifts).
    { unfold shifts, factors. f_equal; [|destruct tail; [rewrite (proj2 (Z.ltb_lt _ _) Htail)|rewrite (proj2 (Z.ltb_ge _ _) Htail)]; reflexivity].
      transitivity (map (fun k : option pv * option pv * option pv => snd k) (map (fun o => row_keys (o_row o)) rows)); [now rewrite map_map|]. rewrite Hk, map_map. reflexivity. }
    rewrite KS, KO. assert (K : row_keys (o_row o) = col_keys (fst x)).
    { apply (f_equal (fun l => nth_error l i)) in Hk. rewrite !nth_error_map, Eo, Ex in Hk. cbn [option_map] in Hk. congruence. }
    unfold row_keys, col_keys in K. injection K as _ K1 K2. rewrite K1, K2. assert (Hx : In x cols) by (eapply nth_error_In, Ex).
    destruct (amount_ok scales (c_scale (fst x))) as (a & Aa & Ga); [unfold scales, factors; apply in_or_app; left; exact (in_map (fun x => c_scale (fst x)) cols x Hx)|exact Us|].
    destruct (amount_ok shifts (c_shift (fst x))) as (b & Ab & Gb); [unfold shifts, factors; apply in_or_app; left; exact (in_map (fun x => c_shift (fst x)) cols x Hx)|exact Ush|].
    destruct (MS a b Aa Ab) as [[-> ->]|(d & N & F1 & F2)].
    - unfold apply_if. rewrite Ga, Gb. cbn [option_map rbind]. eexists. split; [reflexivity|]. cbn [k_name]. intros x' cells' Ex' Ey'. rewrite Ex in Ex'. injection Ex' as <-. rewrite Ey in Ey'. injection Ey' as <-.
      split; [now apply NM|]. exists ty, raw, None, None. repeat (split; [assumption|]). left. auto.
    - destruct (numbers_shown cells ty raw d S N) as (-> & AN & PT).
      destruct (apply_ok OMul _ a (r_name (o_row o)) _ raw Ga PT F1 AN) as (mid & Em & Om & Nm & Pm). cbv zeta in Em, Om, Pm. rewrite Em. cbn [rbind].
      destruct (apply_ok OAdd _ b (r_name (o_row o)) _ mid Gb Pm F2 Nm) as (fin & Ef & Of & _ & _). cbv zeta in Ef, Of. rewrite Ef. eexists. split; [reflexivity|].
      cbn [k_name]. intros x' cells' Ex' Ey'. rewrite Ex in Ex'. injection Ex' as <-. rewrite Ey in Ey'. injection Ey' as <-. split; [now apply NM|].
      exists (CT d), raw, a, b. repeat (split; [assumption|]). right. exists d. eexists _, _, _. split; [reflexivity|]. split; [exact Om|]. split; [exact Of|reflexivity]. }
  exists frame. split; [exact E|]. rewrite map_length, combine_length, map_length, LR in L. split; [lia|].
  intros i x cells Ex Ey. destruct (nth_error frame i) as [col|] eqn:Ei.
  - exists col. split; [reflexivity|]. now apply (R i col Ei).
  - apply nth_error_None in Ei. assert (i < length cols)%nat by (apply nth_error_Some; congruence). lia.
Qed.
End Finish.

(** ** Names *)
Definition tail_names (tail : option (Z * Z)) : list str := match tail with Some _ => [tail_name] | None => [] end.
Lemma placeholders_named (rows : list orow) tail at_ : (forall o, In o rows -> contains $"PLACEHOLDER" (r_name (o_row o)) = false) ->
  filter is_placeholder (tf_names (mkTF rows tail at_)) = tail_names tail.
Proof.
  intros NP. unfold tf_names. cbn [tf_rows tf_tail]. rewrite filter_app. fold (tail_names tail).
  replace (filter is_placeholder (map (fun o => r_name (o_row o)) rows)) with (@nil str); [destruct tail; reflexivity|].
  symmetry. induction rows as [|o rows IH]; [reflexivity|]. cbn [map filter]. unfold is_placeholder at 1. rewrite (NP o (or_introl eq_refl)). apply IH. intros o' Ho'. apply NP. now right.
Qed.
Lemma names_length (rows : list orow) tail at_ : length (tf_names (mkTF rows tail at_)) = (length rows + length (tail_names tail))%nat.
Proof. unfold tf_names. rewrite app_length, map_length. reflexivity. Qed.
Lemma starts_contains p s : startswith p s = true -> contains p s = true.
Proof. intros H. apply startswith_iff in H as [b ->]. apply contains_iff. exists [], b. reflexivity. Qed.
Lemma names_without (rows : list orow) tail at_ : (forall o, In o rows -> contains $"PLACEHOLDER" (r_name (o_row o)) = false) ->
  filter (fun n => negb (startswith $"PLACEHOLDER" n)) (tf_names (mkTF rows tail at_)) = map (fun o => r_name (o_row o)) rows.
Proof.
  intros NP. unfold tf_names. cbn [tf_rows tf_tail]. rewrite filter_app. replace (filter _ match tail with Some _ => [tail_name] | None => [] end) with (@nil str) by (destruct tail; reflexivity).
  rewrite app_nil_r. apply filter_all. apply Forall_map. apply Forall_forall. intros o Ho. destruct (startswith _ _) eqn:E; [|reflexivity]. apply starts_contains in E. rewrite (NP o Ho) in E. discriminate.
Qed.
Lemma dropped (rows : list orow) tbl : (forall o, In o rows -> contains $"PLACEHOLDER" (r_name (o_row o)) = false) ->
  drop_placeholders (map make_column (combine (map (fun o => r_name (o_row o)) rows) tbl)) = map make_column (combine (map (fun o => r_name (o_row o)) rows) tbl).
Proof.
  intros NP. apply filter_all. apply Forall_map. apply Forall_forall. intros [n [ty vs]] Hin. apply in_combine_l in Hin. apply in_map_iff in Hin as (o & <- & Ho).
  unfold make_column. cbn [k_name fst]. now rewrite (NP o Ho).
Qed.
Lemma named_delimited (rows : list orow) tail at_ tbl : (forall o, In o rows -> contains $"PLACEHOLDER" (r_name (o_row o)) = false) -> length tbl = length rows ->
  name_columns (mkTF rows tail at_) tbl = Ok (map make_column (combine (map (fun o => r_name (o_row o)) rows) tbl)).
Proof.
  intros NP L. unfold name_columns. rewrite names_length. destruct tail as [x|]; cbn [tail_names length].
  - replace (length tbl =? length rows + 1)%nat with false by (symmetry; apply Nat.eqb_neq; lia). rewrite (names_without rows (Some x) at_ NP), map_length, L, Nat.eqb_refl. reflexivity.
  - rewrite Nat.add_0_r, L, Nat.eqb_refl. rewrite ?names_length, ?Nat.add_0_r, ?L, ?Nat.eqb_refl. unfold tf_names. cbn [tf_rows tf_tail]. now rewrite app_nil_r.
Qed.
Lemma combine_app_eq {A B} (a a' : list A) (b b' : list B) : length a = length b -> combine (a ++ a') (b ++ b') = combine a b ++ combine a' b'.
Proof. revert b. induction a as [|x a IH]; intros [|y b] L; try discriminate; [reflexivity|]. cbn. f_equal. apply IH. now injection L. Qed.
Lemma named_fixed (rows : list orow) tail at_ tbl more : (forall o, In o rows -> contains $"PLACEHOLDER" (r_name (o_row o)) = false) -> length tbl = length rows -> length more = length (tail_names tail) ->
  exists table, name_columns (mkTF rows tail at_) (tbl ++ more) = Ok table /\
    drop_placeholders table = map make_column (combine (map (fun o => r_name (o_row o)) rows) tbl).
Proof.
  intros NP L M. unfold name_columns. rewrite !names_length, app_length, L, M, Nat.eqb_refl. rewrite ?names_length, ?app_length, ?L, ?M, ?Nat.eqb_refl. eexists. split; [reflexivity|]. fold make_column.
  unfold tf_names. cbn [tf_rows tf_tail]. fold (tail_names tail). rewrite combine_app_eq by (rewrite map_length; lia). rewrite map_app. unfold drop_placeholders. rewrite filter_app. pose proof (dropped rows tbl NP) as D. unfold drop_placeholders in D. rewrite D.
  replace (filter _ (map make_column (combine (tail_names tail) more))) with (@nil framecol); [now rewrite app_nil_r|].
  destruct tail, more as [|c [|]]; cbn in M; try discriminate; reflexivity.
Qed.

(** ** C77 *)
Lemma separator_ok m sep : separator m sep -> check_explicit_delimiter m = Ok [sep] /\ sep <> NL /\ sep <> CR /\ sep <> QUOTE.
Proof.
  unfold check_explicit_delimiter. intros [[-> ->]|(w & -> & H)]; [repeat split; discriminate|]. cbn in H.
  repeat (destruct H as [H|H]; [injection H as <- <-; repeat split; discriminate|]). destruct H.
Qed.
Lemma delimited_frame xs pxs detect load bits fuel file m name p (cols : list (column * (Z * Z))) fr tail at_ rest nm sep lines rows :
  parse_text_structure load bits fuel m name = Ok (Some (mkTF fr tail at_)) ->
  (match tail with Some _ => 0 < rest | None => rest <= 0 end) ->
  map (fun o => row_keys (o_row o)) fr = map (fun x => col_keys (fst x)) cols ->
  let names := map (fun x => c_name (fst x)) cols in
  map fst nm = names -> map (fun o => r_name (o_row o)) fr = reindex_names nm -> Forall plain_name names ->
  separator m sep -> lines_at file p lines -> lines_hold sep lines rows -> delimited (length cols) rows ->
  let scales := factors c_scale cols (0 <? rest) in
  let shifts := factors c_shift cols (0 <? rest) in
  usable_factors scales -> usable_factors shifts ->
  (forall i x, nth_error cols i = Some x -> may_scale_text xs scales shifts (fst x) (map (field_at i) rows)) ->
  exists frame, read_text_table xs pxs detect load bits fuel file m name p = Ok frame /\ length frame = length cols /\
    forall i x, nth_error cols i = Some x ->
      exists col, nth_error frame i = Some col /\ frame_name names i (k_name col) /\
        column_from (shows_fields xs) scales shifts (fst x) (map (field_at i) rows) col.
Proof.
  intros E Htail Hk names Hnm Hnames' Hnames Hsep Hat Hl Hd scales shifts Us Ush Hsc.
  destruct (names_ok fr names nm Hnm Hnames' Hnames) as (ND & NM & NP).
  destruct (separator_ok m sep Hsep) as (Esep & S1 & S2 & S3). destruct (lines_tokens sep S1 S2 S3 lines rows Hl) as [T1 T2].
  assert (LR : length fr = length cols) by (apply (f_equal (@length _)) in Hk; now rewrite !map_length in Hk).
  assert (X : exists text, ascii_text file p = Ok text /\ tokens sep text = Some rows) by (destruct (text_of file p lines Hat) as [X|X]; eauto). destruct X as (text & Etext & Etok).
  unfold read_text_table. rewrite E. cbn [rbind]. rewrite Etext. cbn [rbind]. set (f := mkTF fr tail _). unfold read_table_from_text. rewrite Esep. cbn [rbind hd].
  destruct (delimited_table xs sep text rows (tf_names f) (length cols) Etok Hd) as (tbl & Etbl & Ftbl).
  { unfold f. rewrite placeholders_named, names_length, LR by exact NP. reflexivity. }
  rewrite Etbl. cbn [rbind]. assert (LT : length tbl = length fr) by (rewrite <- (Forall2_length Ftbl), seq_length; now symmetry).
  unfold f at 1. rewrite named_delimited by assumption. cbn [rbind]. rewrite dropped by exact NP. unfold f. cbn [tf_rows tf_tail].
  set (cellss := map (fun i => map (field_at i) rows) (seq 0 (length cols))).
  assert (Cell : forall i x, nth_error cols i = Some x -> nth_error cellss i = Some (map (field_at i) rows)).
  { intros i x Hx. unfold cellss. rewrite nth_error_map, nth_error_seq; [reflexivity|]. apply nth_error_Some. congruence. }
  destruct (columns_scaled xs (fun _ z r => double_for (inject_Z z) r) (trimmed padding) fr tail cols cellss tbl nm rest Hk Htail Hnm Hnames' Hnames Us Ush) as (frame & Efr & Lfr & Rfr).
  - unfold cellss. clear - Ftbl. revert tbl Ftbl. induction (seq 0 (length cols)) as [|i l IH]; intros tbl H; inversion H; subst; constructor; [assumption|]. now apply IH.
  - unfold cellss. clear - Hsc. assert (G : forall k (l : list (column * (Z * Z))), (forall i x, nth_error l i = Some x -> may_scale_text xs scales shifts (fst x) (map (field_at (k + i)) rows)) ->
      Forall2 (fun x cells => may_scale_text xs scales shifts (fst x) cells) l (map (fun i => map (field_at i) rows) (seq k (length l)))).
    { intros k l. revert k. induction l as [|x l IH]; intros k H; [constructor|]. cbn [length seq map]. constructor; [specialize (H 0%nat x eq_refl); now rewrite Nat.add_0_r in H|].
      apply IH. intros i y Hy. specialize (H (S i) y Hy). now rewrite <- Nat.add_succ_comm in H. }
    apply (G 0%nat). exact Hsc.
  - exists frame. split; [exact Efr|]. split; [exact Lfr|]. intros i x Hx. exact (Rfr i x _ Hx (Cell i x Hx)).
Qed.
Theorem C77_delimited : forall xstrtod precise_xstrtod detect load bits fuel file m name p t t' c blk bb prefix suffix bytes sep lines rows,
  says_table m t -> named m blk -> may_hold m $"BYTES" bb -> row_measures m prefix suffix bytes -> good_table blk t -> name <> $"CONTAINER" -> (3 <= fuel)%nat ->
  t = t' ++ [Column c] -> c_items c = None ->
  let cols := table_columns (opt0 prefix) t in
  let names := map (fun x => c_name (fst x)) cols in
  text_block m name (map (fun x => c_type (fst x)) cols) -> Forall plain_name names ->
  separator m sep -> lines_at file p lines -> lines_hold sep lines rows -> delimited (length cols) rows ->
  let padded := 0 <? row_rest c prefix suffix bytes in
  let scales := factors c_scale cols padded in
  let shifts := factors c_shift cols padded in
  usable_factors scales -> usable_factors shifts ->
  (forall i x, nth_error cols i = Some x -> may_scale_text xstrtod scales shifts (fst x) (map (field_at i) rows)) ->
  exists frame, read_text_table xstrtod precise_xstrtod detect load bits fuel file m name p = Ok frame /\ length frame = length cols /\
    forall i x, nth_error cols i = Some x ->
      exists col, nth_error frame i = Some col /\ frame_name names i (k_name col) /\
        column_from (shows_fields xstrtod) scales shifts (fst x) (map (field_at i) rows) col.
Proof.
  intros xs pxs detect load bits fuel file m name p t t' c blk bb prefix suffix bytes sep lines rows Hs Hn Hb Hm Hg Hna Hf Et Hi cols names HT Hnames Hsep Hat Hl Hd padded scales shifts Us Ush Hsc.
  destruct (structure_read load bits fuel m name t blk bb prefix suffix bytes c t' Hs Hn Hb Hm Hg Hna Hf Et Hi HT) as (fr & tail & E & Htail & Hk & nm & Hnm & Hnames').
  exact (delimited_frame xs pxs detect load bits fuel file m name p cols fr tail _ _ nm sep lines rows E Htail Hk Hnm Hnames' Hnames Hsep Hat Hl Hd Us Ush Hsc).
Qed.
Print Assumptions C77_delimited.

(** ** C78 *)
Lemma trim_cells spans kept (cellss : list (list str)) : Forall2 (fun c cells => Forall2 (fun l s => trimmed cell_padding (cell_in l c) s) kept cells) spans cellss ->
  map (fun c => map (fun l => trim_cell (cell_in l c)) kept) spans = cellss.
Proof.
  induction 1 as [|c cells spans cellss H _ IH]; [reflexivity|]. cbn [map]. f_equal; [|exact IH]. clear - H.
  induction H as [|l s ls ss H _ IH]; [reflexivity|]. cbn [map]. f_equal; [|exact IH]. symmetry. exact (trimmed_strip (fun c => has_char c fwf_pad) cell_padding _ s fwf_pad_is H).
Qed.
Theorem C78_fixed_width : forall xstrtod precise_xstrtod detect load bits fuel file m name p t t' c blk bb prefix suffix bytes sep lines rows kept cellss,
  says_table m t -> named m blk -> may_hold m $"BYTES" bb -> row_measures m prefix suffix bytes -> good_table blk t -> name <> $"CONTAINER" -> (3 <= fuel)%nat ->
  t = t' ++ [Column c] -> c_items c = None ->
  let cols := table_columns (opt0 prefix) t in
  let names := map (fun x => c_name (fst x)) cols in
  let rest := row_rest c prefix suffix bytes in
  text_block m name (map (fun x => c_type (fst x)) cols) -> Forall plain_name names ->
  (forall s b, says_truth s b -> xstrtod s = None) ->
  separator m sep -> lines_at file p lines -> lines_hold sep lines rows -> not_delimited (length cols) rows ->
  Forall (fun c => 0 <= fst c /\ 0 <= snd c) (row_spans cols (opt0 prefix + column_end c) rest) ->
  kept_lines (row_spans cols (opt0 prefix + column_end c) rest) lines kept -> kept <> [] ->
  Forall2 (fun x cells => Forall2 (fun l s => trimmed cell_padding (cell_in l (snd x)) s) kept cells) cols cellss ->
  let scales := factors c_scale cols (0 <? rest) in
  let shifts := factors c_shift cols (0 <? rest) in
  usable_factors scales -> usable_factors shifts ->
  Forall2 (fun x cells => may_scale_text precise_xstrtod scales shifts (fst x) cells) cols cellss ->
  exists frame, read_text_table xstrtod precise_xstrtod detect load bits fuel file m name p = Ok frame /\ length frame = length cols /\
    forall i x cells, nth_error cols i = Some x -> nth_error cellss i = Some cells ->
      exists col, nth_error frame i = Some col /\ frame_name names i (k_name col) /\
        column_from (shows_cells precise_xstrtod) scales shifts (fst x) cells col.
Proof.
  intros xs pxs detect load bits fuel file m name p t t' c blk bb prefix suffix bytes sep lines rows kept cellss Hs Hn Hb Hm Hg Hna Hf Et Hi cols names rest HT Hnames Hx Hsep Hat Hl Hd Hsp Hkept Hne Hcells scales shifts Us Ush Hsc.
  destruct (structure_read load bits fuel m name t blk bb prefix suffix bytes c t' Hs Hn Hb Hm Hg Hna Hf Et Hi HT) as (fr & tail & E & Htail & Hk & nm & Hnm & Hnames').
  fold cols rest in E, Htail, Hk, Hnm. destruct (names_ok fr names nm Hnm Hnames' Hnames) as (ND & NM & NP).
  destruct (separator_ok m sep Hsep) as (Esep & S1 & S2 & S3). destruct (lines_tokens sep S1 S2 S3 lines rows Hl) as [T1 T2].
  assert (LR : length fr = length cols) by (apply (f_equal (@length _)) in Hk; now rewrite !map_length in Hk).
  assert (X : exists text, ascii_text file p = Ok text /\ (text = concat lines \/ text = join [CR; NL] lines) /\ tokens sep text = Some rows).
  { destruct (text_of file p lines Hat) as [X|X]; eexists; (split; [exact X|]); auto. }
  destruct X as (text & Etext & Ht & Etok).
  unfold read_text_table. rewrite E. cbn [rbind]. rewrite Etext. cbn [rbind]. set (spans := row_spans cols (opt0 prefix + column_end c) rest) in *. set (f := mkTF fr tail _). unfold read_table_from_text. rewrite Esep. cbn [rbind hd].
  rewrite (not_delimited_table xs sep text rows (tf_names f) (length cols) Hx Etok Hd) by (unfold f; rewrite placeholders_named, names_length, LR by exact NP; reflexivity).
  unfold f at 1. cbn [tf_at]. rewrite (fwf_parsed sep spans lines rows kept text S1 S2 Hl Ht Hsp Hkept Hne). unfold frame_of. rewrite fwf_columns. cbn [rbind].
  assert (Esp : spans = map snd cols ++ match tail with Some _ => [(opt0 prefix + column_end c, rest)] | None => [] end).
  { unfold spans, row_spans. f_equal. destruct tail; [now rewrite (proj2 (Z.ltb_lt _ _) Htail)|now rewrite (proj2 (Z.ltb_ge _ _) Htail)]. }
  rewrite Esp, !map_app. rewrite (trim_cells (map snd cols) kept cellss).
  2: { clear - Hcells. induction Hcells; constructor; assumption. }
  assert (LC := Forall2_length Hcells).
  destruct (named_fixed fr tail (Positions (map spec_of spans)) (map (infer_fwf pxs) cellss)
    (map (infer_fwf pxs) (map (fun c => map (fun l => trim_cell (cell_in l c)) kept) match tail with Some _ => [(opt0 prefix + column_end c, rest)] | None => [] end)) NP) as (table & En & Ed).
  { rewrite map_length. lia. }
  { rewrite !map_length. destruct tail; reflexivity. }
  fold f in En. rewrite En. cbn [rbind]. rewrite Ed. unfold f. cbn [tf_rows tf_tail].
  refine (columns_scaled pxs (fun s z r => pxs s = Some r \/ (pxs s = None /\ double_for (inject_Z z) r)) eq fr tail cols cellss (map (infer_fwf pxs) cellss) nm rest Hk Htail Hnm Hnames' Hnames Us Ush _ Hsc).
  clear. induction cellss as [|cells l IH]; constructor; [apply fwf_shows|exact IH].
Qed.
Print Assumptions C78_fixed_width.

(** ** Fields without positions *)
Definition stream_is (c : column) (f : field) : Prop :=
  name_of f = c_name c /\ dict_get f $"START_BYTE" = None /\ dict_get f $"DATA_TYPE" = option_map PStr (c_type c) /\
  forall n, exists r, row_of_field (dict_set (dict_set (dict_set f $"NAME" (PStr n)) $"START_BYTE" (PInt 1)) $"BYTES" (PInt 0)) = Ok r /\ row_keys r = col_keys c /\ r_name r = n.
Notation info_of blk bb := [($"BLOCK_NAME", name_value blk); ($"BLOCK_REPETITIONS", PInt 1); ($"BLOCK_BYTES", TableLabel.int_value bb)].
Lemma stream_field m c blk bb : says_stream_column m c -> stream_is c (obj_of m (info_of blk bb)).
Proof.
  intros (Hn & Hs & Ht1 & Ht2 & Ht3 & _ & _ & _ & Hi). unfold Spec.Table.holds, Spec.Table.lacks in *.
  set (f := obj_of m _).
  assert (Hf : forall k, ~ In k [$"BLOCK_NAME"; $"BLOCK_REPETITIONS"; $"BLOCK_BYTES"] -> dict_get f k = md_get m k) by (intros k Hk; now apply obj_get).
  assert (HB : dict_get f $"BLOCK_NAME" = Some (name_value blk) /\ dict_get f $"BLOCK_REPETITIONS" = Some (PInt 1) /\
    dict_get f $"BLOCK_BYTES" = Some (TableLabel.int_value bb)).
  { unfold f, obj_of, dict_or. cbn [fold_left fst snd]. rewrite !dget_set. repeat split; reflexivity. }
  clearbody f. destruct HB as (HB1 & HB2 & HB3).
  assert (F : forall k, In k [$"NAME"; $"START_BYTE"; $"BYTES"; $"ITEMS"; $"ITEM_BYTES"; $"ITEM_OFFSET"; $"DATA_TYPE"; $"SCALING_FACTOR"; $"OFFSET"] -> dict_get f k = md_get m k).
  { intros k Hk. apply Hf. intros Hin. cbn in Hk, Hin.
    repeat (destruct Hk as [<-|Hk]; [repeat (destruct Hin as [Hin|Hin]; [discriminate|]); exact Hin|]). exact Hk. }
  split; [unfold name_of; rewrite F by (cbn; auto); now rewrite Hn|]. split; [now rewrite F by (cbn; auto)|]. split; [now rewrite F by (cbn; tauto)|].
  intros n. unfold row_of_field, opt_int. rewrite !dget_set.
  repeat match goal with |- context [str_eqb ?a ?b] => let r := eval vm_compute in (str_eqb a b) in change (str_eqb a b) with r end. cbv iota.
  rewrite HB1, HB2, HB3. rewrite !F by (cbn; tauto). rewrite Ht1, Ht2, Ht3. cbn [rbind].
  assert (E1 : match name_value blk with PStr s => Ok (Some s) | PNone => Ok None | _ => Err TypeError end = Ok blk) by (destruct blk; reflexivity).
  assert (E3 : match TableLabel.int_value bb with PInt z => Ok (Some z) | PNone => Ok None | _ => Err TypeError end = Ok bb) by (destruct bb; reflexivity).
  rewrite E1. cbn [rbind]. rewrite E3. cbn [rbind].
  destruct (c_items c) as [[[ni w] d]|] eqn:Ec.
  - destruct Hi as (_ & Hi1 & Hi2 & Hi3). rewrite Hi1, Hi2. cbn [rbind].
    assert (E2 : match md_get m $"ITEM_OFFSET" with Some (PInt z) => Ok (Some z) | Some PNone | None => Ok None | Some _ => Err TypeError end = Ok d).
    { unfold may_hold, Spec.Table.holds, Spec.Table.lacks in Hi3. destruct d; rewrite Hi3; reflexivity. }
    rewrite E2. cbn [rbind]. eexists. split; [reflexivity|]. split; reflexivity.
  - destruct Hi as (Hi1 & Hi2 & Hi3). rewrite Hi1, Hi2, Hi3. cbn [rbind]. eexists. split; [reflexivity|]. split; reflexivity.
Qed.
Lemma stream_step load bits rec blk bb k v c fs nd rp : says_stream_item k v c ->
  exists l rp', format_step load bits rec (info_of blk bb) (mkF fs nd false rp) (k, v) = Ok (mkF (fs ++ l) nd false rp') /\ Forall2 stream_is (stream_columns [c]) l.
Proof.
  intros (Hk & m & -> & Hsay). unfold format_step.
  assert (K : str_in k structured_parameters = true /\ str_eqb k $"ARRAY" = false /\
     str_in k [$"COLUMN"; $"FIELD"; $"ELEMENT"; $"PRIMITIVE_ARRAY"] = true).
  { cbn in Hk. destruct Hk as [<-|[<-|[<-|[]]]]; vm_compute; auto. }
  destruct K as (K1 & K2 & K3). rewrite K1. cbn [negb]. rewrite K2. cbn [rbind]. rewrite K3. cbn [as_multi_ rbind].
  assert (Hf := stream_field m c blk bb Hsay).
  destruct Hsay as (_ & _ & _ & _ & _ & H1 & H2 & H3 & Hi). rewrite (lacks_has _ _ H1). cbn [rbind].
  fold (obj_of m (info_of blk bb)). set (f := obj_of m _) in *. rewrite !dict_has_eq. unfold f at 1 2. rewrite !obj_get by (cbn; intros [|[|[|[]]]]; discriminate).
  unfold Spec.Table.lacks in H2, H3. rewrite H2, H3. cbn [rbind f_fields f_needs f_add f_reps add_placeholder_if].
  unfold append_object. cbn [f_fields f_needs f_add f_reps]. unfold get_or. unfold Spec.Table.holds, Spec.Table.lacks in Hi.
  unfold stream_columns. cbn [flat_map]. rewrite app_nil_r.
  destruct (c_items c) as [[[n w] d]|] eqn:Ec.
  - destruct Hi as (Hn & Hi & _). rewrite Hi. cbn [rbind]. rewrite Proofs.Files.repeat_spec, concat_repeat_one. replace (Nat.max 1 (Z.to_nat n)) with (Z.to_nat n) by lia.
    eexists _, _. split; [reflexivity|]. clear - Hf. induction (Z.to_nat n); constructor; assumption.
  - destruct Hi as (Hi & _). rewrite Hi. cbn [rbind]. eexists _, _. split; [reflexivity|]. constructor; [exact Hf|constructor].
Qed.
Lemma stream_loop load bits rec blk bb m cols : parts says_stream_item m cols -> forall fs nd rp,
  exists l rp', format_loop load bits rec (info_of blk bb) m (mkF fs nd false rp) = Ok (mkF (fs ++ l) nd false rp') /\ Forall2 stream_is (stream_columns cols) l.
Proof.
  induction 1 as [|k v m cols Hk _ _ IH|k v m c cols Hk Hs _ IH]; intros fs nd rp; cbn [format_loop].
  - exists [], rp. rewrite app_nil_r. split; [reflexivity|constructor].
  - rewrite other_step by assumption. cbn [rbind]. auto.
  - destruct (stream_step load bits rec blk bb k v c fs nd rp Hs) as (l & rp' & E & Hl).
    rewrite E. cbn [rbind]. destruct (IH (fs ++ l) nd rp') as (l2 & rp2 & E2 & H2).
    exists (l ++ l2), rp2. rewrite E2, <- app_assoc. split; [reflexivity|]. unfold stream_columns in *. cbn [flat_map] in *. rewrite app_nil_r in Hl. now apply Forall2_app.
Qed.
Lemma stream_structure load bits fuel m name fields blk bb :
  says_stream m fields -> named m blk -> may_hold m $"BYTES" bb -> name <> $"CONTAINER" -> (2 <= fuel)%nat ->
  let cols := stream_columns fields in
  text_block m name (map c_type cols) ->
  exists rows at_, parse_text_structure load bits fuel m name = Ok (Some (mkTF rows None at_)) /\ (at_ = NoBytes \/ at_ = NoStarts) /\
    map (fun o => row_keys (o_row o)) rows = map col_keys cols /\
    exists nm, map fst nm = map c_name cols /\ map (fun o => r_name (o_row o)) rows = reindex_names nm.
Proof.
  intros [Hp Hr] H1 H2 Hn Hf cols HT.
  assert (RF : exists l nd, read_format_block load bits fuel m name = Ok (l, nd) /\ Forall2 stream_is cols l).
  { destruct fuel as [|fuel]; [lia|]. cbn [read_format_block]. rewrite inject_plain by (eauto using parts_plain; lia). cbn [rbind].
    assert (E : block_info m = info_of blk bb).
    { unfold block_info, get_or, Spec.Table.holds, Spec.Table.lacks, named, may_hold, Spec.Table.holds, Spec.Table.lacks in *. rewrite H1, Hr. destruct blk, bb; rewrite H2; reflexivity. }
    rewrite E. destruct (stream_loop load bits (fun d => read_format_block load bits fuel d name) blk bb m fields Hp [] false PNone) as (l & rp & -> & Hl).
    cbn [rbind f_fields f_needs app]. rewrite (proj2 (str_eqb_neq name _) Hn). cbn [rbind]. exists l, false. auto. }
  destruct RF as (l & nd & Ef & Fl). unfold parse_text_structure. rewrite Ef. cbn [rbind fst].
  set (nm := map (fun f => (name_of f, start_text f)) l).
  assert (Enm : map fst nm = map c_name cols).
  { unfold nm. rewrite map_map. cbn [fst]. clear - Fl. induction Fl as [|c f cs fs (H & _) _ IH]; [reflexivity|]. cbn [map]. now rewrite H, IH. }
  assert (Ln : length (reindex_names nm) = length l) by (rewrite C26_length_kept; apply map_length).
  unfold reindexed. fold nm. set (names := reindex_names nm) in *.
  assert (G : forall names, length names = length l -> exists rows,
     rmap (fun f => row_of_field (dict_set (dict_set f $"START_BYTE" (PInt 1)) $"BYTES" (PInt 0))) (map (fun nf => dict_set (snd nf) $"NAME" (PStr (fst nf))) (combine names l)) = Ok rows /\
       map row_keys rows = map col_keys cols /\ map r_name rows = names).
  { clear - Fl. induction Fl as [|c f cs fs (_ & _ & _ & Hf) _ IH]; intros [|n names] L; try discriminate; [exists []; auto|].
    destruct (IH names) as (rows & E & K & N); [now injection L|]. destruct (Hf n) as (r & Er & Kr & Nr). exists (r :: rows). cbn [combine map rmap fst snd]. rewrite Er. cbn [rbind]. rewrite E. cbn [rbind map].
    rewrite Kr, Nr, K, N. auto. }
  destruct (G names Ln) as (rows & Er & Kr & Nr).
  set (rl := map (fun nf => dict_set (snd nf) $"NAME" (PStr (fst nf))) (combine names l)) in *.
  assert (TYa : forall f, In f rl -> dict_get f $"START_BYTE" = None).
  { intros f Hin. apply in_map_iff in Hin as ((n & f0) & <- & Hc). apply in_combine_r in Hc. cbn [fst snd]. rewrite dget_set. cbn.
    clear - Fl Hc. induction Fl as [|c f cs fs (_ & H & _) _ IH]; [contradiction|]. destruct Hc as [->|Hc]; [exact H|auto]. }
  assert (TY : forall ty, In (Some ty) (map c_type cols) -> exists f, In f rl /\ dict_get f $"DATA_TYPE" = Some (PStr ty)).
  { intros ty Hty. unfold rl. clear - Fl Hty Ln. clearbody names. revert names Ln. induction Fl as [|c f cs fs (_ & _ & H & _) _ IH]; intros [|n names] Ln; try discriminate; [contradiction|].
    cbn [combine map fst snd]. destruct Hty as [E|Hty].
    - eexists. split; [now left|]. rewrite dget_set. change (str_eqb $"NAME" $"DATA_TYPE") with false. cbv iota. rewrite H, E. reflexivity.
    - destruct (IH Hty names) as (f' & Hf' & E'); [now injection Ln|]. exists f'. split; [now right|exact E']. }
  assert (DT : has_field $"DATA_TYPE" rl = true).
  { assert (X : exists ty, In (Some ty) (map c_type cols)) by (destruct HT as [(ty & X & _)|[X _]]; eauto). destruct X as (ty & X). destruct (TY ty X) as (f' & G1 & G2).
    eapply has_field_in; [exact G1|]. rewrite G2. discriminate. }
  assert (TX : existsb ascii_typed rl || looks_like_ascii m name = true).
  { apply orb_true_iff. destruct HT as [(ty & X & M)|(_ & M)].
    - left. destruct (TY ty X) as (f' & G1 & G2). apply existsb_exists. exists f'. split; [exact G1|]. unfold ascii_typed. rewrite G2. now apply contains_iff.
    - right. unfold looks_like_ascii. destruct M as [M|[M| ->]]; [|now rewrite (proj2 (contains_iff _ _) M), orb_true_r|now rewrite orb_true_r].
      now rewrite (proj2 (contains_iff _ _) M). }
  assert (SB : has_field $"START_BYTE" rl = false).
  { apply existsb_none. intros f Hin. rewrite dict_has_eq. now rewrite (TYa f Hin). }
  rewrite DT, TX, SB. cbn [andb negb]. rewrite andb_true_r. exists (map (fun r => mkO r 0 1) rows).
  assert (K1 : map (fun o => row_keys (o_row o)) (map (fun r => mkO r 0 1) rows) = map col_keys cols) by (rewrite map_map; exact Kr).
  assert (N1 : map (fun o => r_name (o_row o)) (map (fun r => mkO r 0 1) rows) = reindex_names nm) by (rewrite map_map; exact Nr).
  destruct (negb (has_field $"BYTES" rl)); rewrite Er; cbn [rbind]; eexists; (split; [reflexivity|]); (split; [auto|]); (split; [exact K1|]); exists nm; auto.
Qed.

(** The fields of a SPREADSHEET need no positions. *)
Theorem C77_spreadsheet : forall xstrtod precise_xstrtod detect load bits fuel file m name p fields blk bb sep lines rows,
  says_stream m fields -> named m blk -> may_hold m $"BYTES" bb -> name <> $"CONTAINER" -> (2 <= fuel)%nat ->
  let cols := stream_columns fields in
  text_block m name (map c_type cols) -> Forall plain_name (map c_name cols) ->
  separator m sep -> lines_at file p lines -> lines_hold sep lines rows -> delimited (length cols) rows ->
  usable_factors (map c_scale cols) -> usable_factors (map c_shift cols) ->
  (forall i c, nth_error cols i = Some c -> may_scale_text xstrtod (map c_scale cols) (map c_shift cols) c (map (field_at i) rows)) ->
  exists frame, read_text_table xstrtod precise_xstrtod detect load bits fuel file m name p = Ok frame /\ length frame = length cols /\
    forall i c, nth_error cols i = Some c ->
      exists col, nth_error frame i = Some col /\ frame_name (map c_name cols) i (k_name col) /\
        column_from (shows_fields xstrtod) (map c_scale cols) (map c_shift cols) c (map (field_at i) rows) col.
Proof.
  intros xs pxs detect load bits fuel file m name p fields blk bb sep lines rows Hs Hn Hb Hna Hf cols HT Hnames Hsep Hat Hl Hd Us Ush Hsc.
  destruct (stream_structure load bits fuel m name fields blk bb Hs Hn Hb Hna Hf HT) as (fr & at_ & E & _ & Hk & nm & Hnm & Hnames'). fold cols in Hk, Hnm.
  set (cols' := map (fun c : column => (c, (0, 0))) cols).
  assert (M : forall {B} (g : column -> B), map (fun x => g (fst x)) cols' = map g cols) by (intros B g; unfold cols'; rewrite map_map; reflexivity).
  assert (F : forall g, factors g cols' (0 <? 0) = map g cols) by (intros g; unfold factors; rewrite M; apply app_nil_r).
  assert (L : length cols' = length cols) by apply map_length.
  destruct (delimited_frame xs pxs detect load bits fuel file m name p cols' fr None at_ 0 nm sep lines rows E) as (frame & R1 & R2 & R3); try rewrite ?M, ?F, ?L; try assumption; [lia| |].
  - intros i x Hx. unfold cols' in Hx. rewrite nth_error_map in Hx. destruct (nth_error cols i) as [c|] eqn:Ec; [|discriminate]. injection Hx as <-. rewrite ?F. exact (Hsc i c Ec).
  - exists frame. rewrite ?M in R3. rewrite ?F in R3. split; [exact R1|]. split; [congruence|]. intros i c Hc. apply (R3 i (c, (0, 0))). unfold cols'. now rewrite nth_error_map, Hc.
Qed.
Print Assumptions C77_spreadsheet.
(** The lines decide what the rows are. *)
Theorem C77_rows_unique : forall m sep lines rows rows', separator m sep -> lines_hold sep lines rows -> lines_hold sep lines rows' -> rows = rows'.
Proof.
  intros m sep lines rows rows' Hs H H'. destruct (separator_ok m sep Hs) as (_ & S1 & S2 & S3).
  destruct (lines_tokens sep S1 S2 S3 _ _ H) as [E _]. destruct (lines_tokens sep S1 S2 S3 _ _ H') as [E' _]. congruence.
Qed.
Print Assumptions C77_rows_unique.
(** A text without rows is not read. *)
Theorem C77_blank_text : forall xstrtod precise_xstrtod detect load bits fuel file m name p t t' c blk bb prefix suffix bytes sep lines,
  says_table m t -> named m blk -> may_hold m $"BYTES" bb -> row_measures m prefix suffix bytes -> good_table blk t -> name <> $"CONTAINER" -> (3 <= fuel)%nat ->
  t = t' ++ [Column c] -> c_items c = None ->
  text_block m name (map (fun x => c_type (fst x)) (table_columns (opt0 prefix) t)) ->
  separator m sep -> lines_at file p lines -> lines_hold sep lines [] ->
  read_text_table xstrtod precise_xstrtod detect load bits fuel file m name p = Err ValueError.
Proof.
  intros xs pxs detect load bits fuel file m name p t t' c blk bb prefix suffix bytes sep lines Hs Hn Hb Hm Hg Hna Hf Et Hi HT Hsep Hat Hl.
  destruct (structure_read load bits fuel m name t blk bb prefix suffix bytes c t' Hs Hn Hb Hm Hg Hna Hf Et Hi HT) as (fr & tail & E & _).
  destruct (separator_ok m sep Hsep) as (Esep & S1 & S2 & S3). destruct (lines_tokens sep S1 S2 S3 lines [] Hl) as [T1 T2].
  assert (X : exists text, ascii_text file p = Ok text /\ tokens sep text = Some []) by (destruct (text_of file p lines Hat) as [X|X]; eauto). destruct X as (text & Etext & Etok).
  unfold read_text_table. rewrite E. cbn [rbind]. rewrite Etext. cbn [rbind]. unfold read_table_from_text. rewrite Esep. cbn [rbind hd]. unfold read_as_delimited, csv_rows. now rewrite Etok.
Qed.
Print Assumptions C77_blank_text.

(** ** Examples *)
Definition crnl : str := [CR; NL].
(** two columns: an integer to be doubled, and four characters *)
Definition tt_label : multidict :=
  [($"INTERCHANGE_FORMAT", PStr $"ASCII"); ($"ROW_BYTES", PInt 10);
   typed_column $"A" 1 3 $"ASCII_INTEGER" [($"SCALING_FACTOR", PInt 2)]; typed_column $"T" 5 4 $"CHARACTER" []].
Definition tt_A : column := mkCol $"A" 1 3 None (Some $"ASCII_INTEGER") (Some (PInt 2)) None.
Definition tt_T : column := mkCol $"T" 5 4 None (Some $"CHARACTER") None None.
Definition tt_table : list element := [Column tt_A; Column tt_T].
Definition tt_lines : list str := [$"  7,AB  " ++ crnl; $" 12,""C,D""" ++ crnl; $"  " ++ crnl].
Definition tt_rows : list (list str) := [[$"  7"; $"AB  "]; [$" 12"; $"C,D"]].
Definition tt_fixed : list str := [$"  7 AB  " ++ crnl; $" 12 C,D " ++ crnl; $"        " ++ crnl].
Definition no_reals : str -> option num := fun _ => None.
Definition read_tt (m : multidict) (file : list ascii) : res (list framecol) :=
  read_text_table no_reals no_reals (fun _ => []) ex_load (fun f _ => Ok f) 5 file m $"TABLE" (mkPos 0 (PInt (Z.of_nat (length file))) false).
Lemma tt_says : says_table tt_label tt_table.
Proof. split; [|reflexivity]. do 2 (apply other_item; [not_in|not_ptr|]). do 2 (apply part_item; [cbn; tauto|a_column|]). constructor. Qed.
Lemma tt_good : good_table None tt_table.
Proof.
  split; [|split; [|split; [|split]]].
  - eexists _, _. split; [reflexivity|]. apply adj_column. constructor.
  - repeat constructor; try (intros; discriminate).
  - constructor.
  - discriminate.
  - vm_compute. constructor.
Qed.
Lemma written_plain sep w : forallb (fun c => negb (Ascii.eqb c sep) && negb (Ascii.eqb c NL) && negb (Ascii.eqb c CR)) w = true ->
  match w with c :: _ => c <> quote | [] => True end -> written_field sep w w.
Proof.
  intros H Hq. apply plain_field.
  - apply Forall_forall. intros c Hc. rewrite forallb_forall in H. specialize (H c Hc). rewrite !andb_true_iff, !negb_true_iff, !Ascii.eqb_neq in H. destruct H as [[H1 H2] H3]. repeat split; assumption.
  - intros s' ->. now apply Hq.
Qed.
Lemma not_blank_row sep w c : In c w -> c <> " "%char -> c <> tab -> ~ Forall (blank_in sep) w.
Proof. intros Hc H1 H2 F. rewrite Forall_forall in F. destruct (F c Hc) as [[E|E] _]; contradiction. Qed.
Lemma blank_spaces sep n : sep <> " "%char -> Forall (blank_in sep) (repeat " "%char n).
Proof. intros H. apply Forall_forall. intros c Hc. apply repeat_spec in Hc as ->. split; [now left|congruence]. Qed.
Lemma tt_lines_hold : lines_hold ","%char tt_lines tt_rows.
Proof.
  apply row_line; [|now right|].
  { apply (a_row _ [$"  7"; $"AB  "] [$"  7"; $"AB  "]); [discriminate| |apply (not_blank_row _ _ "7"%char); [cbn; tauto|discriminate|discriminate]].
    constructor; [now apply written_plain|]. constructor; [now apply written_plain|constructor]. }
  apply row_line; [|now right|].
  { apply (a_row _ [$" 12"; $"C,D"] [$" 12"; $"""C,D"""]); [discriminate| |apply (not_blank_row _ _ "1"%char); [cbn; tauto|discriminate|discriminate]].
    constructor; [now apply written_plain|]. constructor; [|constructor].
    apply (quoted_field ","%char $"C,D" []); [repeat constructor; discriminate|constructor|intros s' E; discriminate E]. }
  apply (blank_line _ $"  "); [apply (blank_spaces _ 2); discriminate|now right|]. constructor.
Qed.
Lemma tt_usable : usable_factors [Some (PInt 2); None; None] /\ usable_factors [None; None; None].
Proof.
  split; split.
  - constructor; [right; left; now eexists|repeat constructor].
  - intros z [E|Hz]; [injection E as <-; vm_compute; discriminate|]. cbn in Hz. repeat (destruct Hz as [Hz|Hz]; [discriminate Hz|]). contradiction.
  - repeat constructor.
  - intros z Hz. cbn in Hz. repeat (destruct Hz as [Hz|Hz]; [discriminate Hz|]). contradiction.
Qed.

Lemma tt_numbers s z : Model.TextTable.int_value s = Some z -> in_range true 8 z = true -> says_int64 s.
Proof. intros H R. exists z. split; [now apply int_value_is|]. apply (Proofs.Scaling.in_range_holds true 8 z); [now right; right; right|exact R]. Qed.
Ltac no_amounts := intros a b Ha Hb; cbn in Ha, Hb; inversion Ha; subst; inversion Hb; subst; left; auto.
Lemma tt_may_scale cells : Forall says_int64 cells -> may_scale_text no_reals [Some (PInt 2); None; None] [None; None; None] tt_A cells.
Proof.
  intros H a b Ha Hb. right. exists (DInt true 8). split; [now constructor|]. cbn in Ha, Hb. inversion Hb; subst. split; [|now destruct a as [[|]|]].
  inversion Ha; subst; try exact I. exfalso. match goal with F : Forall is_int _ |- _ => inversion F as [|? ? _ F']; subst; inversion F' as [|? ? [z E] _]; discriminate E end.
Qed.
Example C77_meets :
  says_table tt_label tt_table /\ good_table None tt_table /\ row_measures tt_label None None (Some 10) /\
  table_columns 0 tt_table = [(tt_A, (0, 3)); (tt_T, (4, 4))] /\
  text_block tt_label $"TABLE" [Some $"ASCII_INTEGER"; Some $"CHARACTER"] /\ Forall plain_name [$"A"; $"T"] /\ separator tt_label ","%char /\
  lines_at (concat tt_lines) (mkPos 0 (PInt (Z.of_nat (length (concat tt_lines)))) false) tt_lines /\ lines_hold ","%char tt_lines tt_rows /\
  delimited 2 tt_rows /\ factors c_scale (table_columns 0 tt_table) (0 <? row_rest tt_T None None (Some 10)) = [Some (PInt 2); None; None] /\
  usable_factors [Some (PInt 2); None; None] /\ usable_factors [None; None; None] /\
  may_scale_text no_reals [Some (PInt 2); None; None] [None; None; None] tt_A (map (field_at 0) tt_rows) /\
  may_scale_text no_reals [Some (PInt 2); None; None] [None; None; None] tt_T (map (field_at 1) tt_rows) /\
  exists x y, read_tt tt_label (concat tt_lines) =
    Ok [mkFC $"A" (CT DF64) [VNum (EF (Fin x)); VNum (EF (Fin y))]; mkFC $"T" CObject [VText $"AB"; VText $"C,D"]] /\ (x == 14)%Q /\ (y == 24)%Q.
Proof.
  split; [exact tt_says|]. split; [exact tt_good|]. split; [repeat split; reflexivity|]. split; [reflexivity|].
  split; [left; exists $"ASCII_INTEGER"; split; [now left|now exists [], $"_INTEGER"]|]. split; [constructor; [a_plain|]; constructor; [a_plain|constructor]|].
  split; [now left|]. split; [apply (in_bytes _ _ _ [] []); [reflexivity|now rewrite app_nil_r|reflexivity|now left]|]. split; [exact tt_lines_hold|].
  split.
  { split; [eexists _, _; split; [reflexivity|]; split; [reflexivity|]; repeat constructor|]. intros i Hi. destruct i as [|[|i]]; [| |lia]; intros (H & _ & _);
    inversion H as [|? ? H1 _]; subst; destruct H1 as [M|([] & M)]; apply str_in_iff in M; discriminate M. }
  split; [reflexivity|]. split; [exact (proj1 tt_usable)|]. split; [exact (proj2 tt_usable)|].
  split; [apply tt_may_scale; repeat constructor; (eapply tt_numbers; [vm_compute; reflexivity|reflexivity])|].
  split; [no_amounts|]. eexists _, _. split; [vm_compute; reflexivity|]. split; reflexivity.
Qed.
Lemma not_blank s : strip (trim_cell s) <> [] -> ~ blank_cell s.
Proof. intros H B. apply H. now apply blank_trim. Qed.
Example C78_meets :
  row_spans (table_columns 0 tt_table) (0 + column_end tt_T) (row_rest tt_T None None (Some 10)) = [(0, 3); (4, 4); (8, 2)] /\
  lines_hold ","%char tt_fixed [[$"  7 AB  "]; [$" 12 C"; $"D "]] /\ not_delimited 2 [[$"  7 AB  "]; [$" 12 C"; $"D "]] /\
  kept_lines [(0, 3); (4, 4); (8, 2)] tt_fixed (firstn 2 tt_fixed) /\
  Forall2 (fun (x : column * (Z * Z)) cells => Forall2 (fun l s => trimmed cell_padding (cell_in l (snd x)) s) (firstn 2 tt_fixed) cells) (table_columns 0 tt_table) [[$"7"; $"12"]; [$"AB"; $"C,D"]] /\
  (forall s b, says_truth s b -> no_reals s = None) /\
  may_scale_text no_reals [Some (PInt 2); None; None] [None; None; None] tt_A [$"7"; $"12"] /\
  may_scale_text no_reals [Some (PInt 2); None; None] [None; None; None] tt_T [$"AB"; $"C,D"] /\
  exists x y, read_tt tt_label (concat tt_fixed) =
    Ok [mkFC $"A" (CT DF64) [VNum (EF (Fin x)); VNum (EF (Fin y))]; mkFC $"T" CObject [VText $"AB"; VText $"C,D"]] /\ (x == 14)%Q /\ (y == 24)%Q.
Proof.
  split; [reflexivity|]. split; [|split; [|split; [|split; [|split; [reflexivity|split; [|split; [no_amounts|eexists _, _; split; [vm_compute; reflexivity|split; reflexivity]]]]]]]].
  - apply row_line; [|now right|].
    { apply (a_row _ [$"  7 AB  "] [$"  7 AB  "]); [discriminate| |apply (not_blank_row _ _ "7"%char); [cbn; tauto|discriminate|discriminate]]. constructor; [now apply written_plain|constructor]. }
    apply row_line; [|now right|].
    { apply (a_row _ [$" 12 C"; $"D "] [$" 12 C"; $"D "]); [discriminate| |apply (not_blank_row _ _ "1"%char); [cbn; tauto|discriminate|discriminate]].
      constructor; [now apply written_plain|]. constructor; [now apply written_plain|constructor]. }
    apply (blank_line _ $"        "); [apply (blank_spaces _ 8); discriminate|now right|]. constructor.
  - eexists _, _. split; [reflexivity|]. left. discriminate.
  - apply kept_line; [constructor 1; apply not_blank; discriminate|]. apply kept_line; [constructor 1; apply not_blank; discriminate|].
    apply kept_not; [|constructor]. repeat constructor; now apply blank_trim.
  - change (table_columns 0 tt_table) with [(tt_A, (0, 3)); (tt_T, (4, 4))]. change (firstn 2 tt_fixed) with [$"  7 AB  " ++ crnl; $" 12 C,D " ++ crnl].
    apply Forall2_cons; [|apply Forall2_cons; [|apply Forall2_nil]]; (apply Forall2_cons; [|apply Forall2_cons; [|apply Forall2_nil]]); (match goal with |- trimmed _ ?s ?t => replace t with (trim_cell s) by (vm_compute; reflexivity); apply trim_ok end).
  - apply tt_may_scale; repeat constructor; (eapply tt_numbers; [vm_compute; reflexivity|reflexivity]).
Qed.

(** ** What can go wrong *)
Definition text_column (ty : str) : multidict := [($"INTERCHANGE_FORMAT", PStr $"ASCII"); ($"ROW_BYTES", PInt 5); typed_column $"A" 1 3 ty []].
Lemma text_column_says ty : says_table (text_column ty) [Column (mkCol $"A" 1 3 None (Some ty) None None)].
Proof. split; [|reflexivity]. do 2 (apply other_item; [not_in|not_ptr|]). apply part_item; [cbn; tauto|a_column|]. constructor. Qed.
(** Characters that look like numbers are shown as numbers, whatever the label's type: leading
    zeros are lost. *)
Theorem C77_leading_zeros_refuted : exists m c, says_table m [Column c] /\ c_type c = Some $"CHARACTER" /\
  read_tt m ($"007" ++ crnl ++ $"042" ++ crnl) = Ok [mkFC (c_name c) (CT (DInt true 8)) [VNum (EI 7); VNum (EI 42)]].
Proof. exists (text_column $"CHARACTER"), (mkCol $"A" 1 3 None (Some $"CHARACTER") None None). split; [apply text_column_says|]. split; [reflexivity|]. vm_compute. reflexivity. Qed.
Print Assumptions C77_leading_zeros_refuted.
(** Words that pandas takes for missing values are not shown. *)
Theorem C77_missing_words_refuted : exists m c, says_table m [Column c] /\ c_type c = Some $"CHARACTER" /\
  read_tt m ($"ABC" ++ crnl ++ $"NA" ++ crnl) = Ok [mkFC (c_name c) CObject [VText $"ABC"; VNum (EF NaN)]].
Proof. exists (text_column $"CHARACTER"), (mkCol $"A" 1 3 None (Some $"CHARACTER") None None). split; [apply text_column_says|]. split; [reflexivity|]. vm_compute. reflexivity. Qed.
Print Assumptions C77_missing_words_refuted.
(** If the rows happen to have as many commas as a delimited table would, they are split there
    and not at the label's positions: the first cell is 1,5 but 1 is shown. *)
Theorem C78_accidental_commas_refuted : exists m c c', says_table m [Column c; Column c'] /\ (c_start c, c_bytes c) = (1, 3) /\ (c_start c', c_bytes c') = (5, 2) /\
  read_tt m ($"1,5 XY" ++ crnl) = Ok [mkFC (c_name c) (CT (DInt true 8)) [VNum (EI 1)]; mkFC (c_name c') CObject [VText $"5 XY"]].
Proof.
  exists [($"INTERCHANGE_FORMAT", PStr $"ASCII"); ($"ROW_BYTES", PInt 8); typed_column $"A" 1 3 $"CHARACTER" []; typed_column $"B" 5 2 $"CHARACTER" []],
    (mkCol $"A" 1 3 None (Some $"CHARACTER") None None), (mkCol $"B" 5 2 None (Some $"CHARACTER") None None).
  split; [split; [|reflexivity]; do 2 (apply other_item; [not_in|not_ptr|]); do 2 (apply part_item; [cbn; tauto|a_column|]); constructor|].
  split; [reflexivity|]. split; [reflexivity|]. vm_compute. reflexivity.
Qed.
Print Assumptions C78_accidental_commas_refuted.
(** Rows without anything in them are left out, so later rows move up. *)
Theorem C78_blank_rows_refuted : exists m c, says_table m [Column c] /\
  read_tt m ($"AB " ++ crnl ++ $"   " ++ crnl ++ $"CD " ++ crnl) = Ok [mkFC (c_name c) CObject [VText $"AB"; VText $"CD"]].
Proof. exists (text_column $"CHARACTER"), (mkCol $"A" 1 3 None (Some $"CHARACTER") None None). split; [apply text_column_says|]. vm_compute. reflexivity. Qed.
Print Assumptions C78_blank_rows_refuted.
Lemma split_parts sep w : forall p, In p (split_on sep w) -> ~ In sep p /\ forall c, In c p -> In c w.
Proof.
  induction w as [|x w IH]; cbn [split_on]; intros p Hp; [destruct Hp as [<-|[]]; split; [intros []|intros c []]|].
  destruct (Ascii.eqb x sep) eqn:E.
  - destruct Hp as [<-|Hp]; [split; [intros []|intros c []]|]. destruct (IH p Hp) as [I1 I2]. split; [exact I1|]. intros c Hc. right. now apply I2.
  - apply Ascii.eqb_neq in E. destruct (split_on sep w) as [|q qs]; [destruct Hp as [<-|[]]; split; [intros [X|[]]; congruence|intros c [->|[]]; now left]|]. destruct Hp as [<-|Hp].
    + destruct (IH q (or_introl eq_refl)) as [I1 I2]. split; [intros [X|X]; [congruence|contradiction]|]. intros c [->|Hc]; [now left|right; now apply I2].
    + destruct (IH p (or_intror Hp)) as [I1 I2]. split; [exact I1|]. intros c Hc. right. now apply I2.
Qed.
(** Lines without quotes always are rows: the texts between the separators, or nothing if the
    line is blank. *)
Theorem C77_lines_total : forall sep lines, (forall w e, In (w, e) lines -> Forall in_line w /\ ~ In quote w /\ line_end e) ->
  exists rows, lines_hold sep (map (fun x : str * str => fst x ++ snd x) lines) rows /\
    Forall (fun row => exists w e, In (w, e) lines /\ join [sep] row = w) rows.
Proof.
  intros sep lines. induction lines as [|(w, e) lines IH]; intros H; [exists []; split; constructor|].
  destruct IH as (rows & Hr & Hj); [intros w' e' Hin; apply H; now right|]. destruct (H w e (or_introl eq_refl)) as (Hl & Hq & He).
  assert (Hj' : Forall (fun row => exists w0 e0, In (w0, e0) ((w, e) :: lines) /\ join [sep] row = w0) rows).
  { eapply Forall_impl; [|exact Hj]. intros row (w' & e' & Hin & E). exists w', e'. split; [now right|exact E]. }
  assert (D : Forall (blank_in sep) w \/ ~ Forall (blank_in sep) w).
  { clear. induction w as [|c w IH]; [left; constructor|].
    assert (Dc : blank_in sep c \/ ~ blank_in sep c).
    { unfold blank_in. destruct (ascii_dec c " "%char), (ascii_dec c tab), (ascii_dec c sep); tauto. }
    destruct Dc as [Dc|Dc]; [|right; intros F; inversion F; contradiction]. destruct IH as [I|I]; [left; now constructor|right; intros F; inversion F; contradiction]. }
  cbn [map fst snd]. destruct D as [D|D].
  - exists rows. split; [now apply blank_line|exact Hj'].
  - exists (split_on sep w :: rows). split.
    + apply row_line; [|exact He|exact Hr]. rewrite <- (join_split_on sep w) at 2. apply a_row; [apply split_on_nonempty| |].
      * assert (F : Forall (fun p => Forall (in_field sep) p /\ no_quote_first p) (split_on sep w)).
        { apply Forall_forall. intros p Hp. split.
          - apply Forall_forall. intros c Hc. split; [intros ->; exact (proj1 (split_parts sep w p Hp) Hc)|]. rewrite Forall_forall in Hl. apply Hl. exact (proj2 (split_parts sep w p Hp) c Hc).
          - intros s' ->. apply Hq. exact (proj2 (split_parts sep w _ Hp) quote (or_introl eq_refl)). }
        clear - F. induction F as [|p l [F1 F2] _ IH]; constructor; [now apply plain_field|exact IH].
      * now rewrite join_split_on.
    + constructor; [|exact Hj']. exists w, e. split; [now left|apply join_split_on].
Qed.
Print Assumptions C77_lines_total.
Definition ss_label : multidict :=
  [($"FIELD_DELIMITER", PStr $"SEMICOLON"); ($"FIELD", PMulti [($"NAME", PStr $"A"); ($"DATA_TYPE", PStr $"ASCII_INTEGER"); ($"BYTES", PInt 5)]);
   ($"FIELD", PMulti [($"NAME", PStr $"B"); ($"DATA_TYPE", PStr $"CHARACTER"); ($"ITEMS", PInt 2); ($"ITEM_BYTES", PInt 4)])].
Definition ss_fields : list column := [mkCol $"A" 0 0 None (Some $"ASCII_INTEGER") None None; mkCol $"B" 0 0 (Some (2, 4, None)) (Some $"CHARACTER") None None].
Definition ss_text : str := $"1;x;y" ++ [NL] ++ $"22;z".
Example C77_spreadsheet_meets :
  says_stream ss_label ss_fields /\ map c_name (stream_columns ss_fields) = [$"A"; $"B"; $"B"] /\ separator ss_label ";"%char /\
  text_block ss_label $"SPREADSHEET" (map c_type (stream_columns ss_fields)) /\
  delimited 3 [[$"1"; $"x"; $"y"]; [$"22"; $"z"]] /\
  lines_hold ";"%char [$"1;x;y" ++ [NL]; $"22;z"] [[$"1"; $"x"; $"y"]; [$"22"; $"z"]] /\
  read_text_table no_reals no_reals (fun _ => []) ex_load (fun f _ => Ok f) 5 ss_text ss_label $"SPREADSHEET" (mkPos 0 PNone false) =
    Ok [mkFC $"A" (CT (DInt true 8)) [VNum (EI 1); VNum (EI 22)]; mkFC $"B_0" CObject [VText $"x"; VText $"z"]; mkFC $"B_1" CObject [VText $"y"; VNum (EF NaN)]].
Proof.
  split; [|split; [reflexivity|split; [|split; [|split; [|split]]]]].
  - split; [|reflexivity]. apply other_item; [not_in|not_ptr|].
    do 2 (apply part_item; [cbn; tauto|split; [cbn; tauto|]; eexists; split; [reflexivity|]; unfold says_stream_column, Spec.Table.holds, Spec.Table.lacks, may_hold; cbn; repeat split; try reflexivity; try lia|]). constructor.
  - right. eexists. split; [reflexivity|]. cbn. auto.
  - left. exists $"ASCII_INTEGER". split; [now left|now exists [], $"_INTEGER"].
  - split; [eexists _, _; split; [reflexivity|]; split; [reflexivity|]; repeat constructor|]. intros i Hi. destruct i as [|[|[|i]]]; [| | |lia]; intros (H & _ & _);
    inversion H as [|? ? H1 _]; subst; destruct H1 as [M|([] & M)]; apply str_in_iff in M; discriminate M.
  - apply row_line; [|now left|].
    { apply (a_row _ [$"1"; $"x"; $"y"] [$"1"; $"x"; $"y"]); [discriminate| |apply (not_blank_row _ _ "x"%char); [cbn; tauto|discriminate|discriminate]].
      do 3 (constructor; [now apply written_plain|]). constructor. }
    apply last_row. apply (a_row _ [$"22"; $"z"] [$"22"; $"z"]); [discriminate| |apply (not_blank_row _ _ "2"%char); [cbn; tauto|discriminate|discriminate]].
    do 2 (constructor; [now apply written_plain|]). constructor.
  - vm_compute. reflexivity.
Qed.
