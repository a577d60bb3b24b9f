(** C73, C74: the values of binary PDS3 tables. *)
From Coq Require Import QArith Qabs Lia ZArith.
From Verif.Base Require Import Py PyFacts Val Numpy Float.
From Verif.Model Require Import Types Scaling Pds4Types Pds4Values Ibm Table Array Pds4Frame TableValues.
From Verif.Spec Require Import Types Ibm Pds4Values Array Table TableValues.
From Verif.Spec Require Scaling.
From Verif.Proofs Require Import Pds4Frame Array Table TableLabel TableValues.
From Verif.Properties Require Types.
From Verif.Properties Require Import Table.
From Verif.Spec Require Import Table TableValues.
From Verif.Proofs Require Import Table TableValues.
Open Scope Z_scope.

Section Foreign.
Variable from_vax32 : N -> num.
Variable cp500 : ascii -> ascii.
Lemma zip3 {A B C} (l : list A) (cols : list B) (kinds : list C) : length l = length cols -> length cols = length kinds ->
  exists ml : list (A * (B * C)), map fst ml = l /\ map (fun p => fst (snd p)) ml = cols /\ map (fun p => snd (snd p)) ml = kinds.
Proof.
  revert cols kinds. induction l as [|a l IH]; intros [|b cols] [|k kinds] H1 H2; try discriminate; [now exists []|].
  destruct (IH cols kinds) as (ml & <- & <- & <-); [now injection H1|now injection H2|]. now exists ((a, (b, k)) :: ml).
Qed.
Lemma map_eq_in {A B} (f g : A -> B) l : map f l = map g l -> forall x, In x l -> f x = g x.
Proof. induction l as [|y l IH]; intros E x Hx; [contradiction|]. injection E as E1 E2. destruct Hx as [<-|Hx]; [exact E1|now apply IH]. Qed.
Lemma F2_zip {A B C} (R : B -> C -> Prop) (ml : list (A * (B * C))) : Forall2 R (map (fun p => fst (snd p)) ml) (map (fun p => snd (snd p)) ml) ->
  forall p, In p ml -> R (fst (snd p)) (snd (snd p)).
Proof. induction ml as [|q ml IH]; intros H p Hp; [contradiction|]. inversion H; subst. destruct Hp as [<-|Hp]; [assumption|now apply IH]. Qed.
Lemma NoDup_app_one {A} (l : list A) x : NoDup l -> ~ In x l -> NoDup (l ++ [x]).
Proof.
  induction 1 as [|y l Hy _ IH]; intros Hx; cbn [app]; constructor; [intros []|constructor| |apply IH; intros X; apply Hx; now right].
  rewrite in_app_iff. intros [X|[->|[]]]; [contradiction|]. apply Hx. now left.
Qed.
Lemma filter_all {A} (f : A -> bool) l : Forall (fun x => f x = true) l -> filter f l = l.
Proof. induction 1 as [|x l E _ IH]; [reflexivity|]. cbn [filter]. now rewrite E, IH. Qed.
Lemma combine_map {A B C} (f : A -> B) (g : A -> C) l : combine (map f l) (map g l) = map (fun x => (f x, g x)) l.
Proof. induction l as [|x l IH]; [reflexivity|]. cbn. now rewrite IH. Qed.
Lemma rows_in_ok mem pre (rows : list (list ascii)) post count L : Forall (fun r => length r = L) rows -> (0 < L)%nat ->
  (count = length rows \/ (length rows < count)%nat /\ post = []) -> rows_in mem (pre ++ concat rows ++ post) (length pre) count L = Ok (length rows).
Proof.
  intros HL H0 Hc. unfold rows_in. rewrite skipn_app, skipn_all, Nat.sub_diag. change (skipn 0 (concat rows ++ post)) with (concat rows ++ post). cbn [app].
  assert (X : (L =? 0)%nat = false) by (apply Nat.eqb_neq; lia). rewrite X. cbv zeta. pose proof (concat_len rows L HL) as Hlen. destruct mem.
  - assert (El : length (firstn (count * L) (concat rows ++ post)) = (length rows * L)%nat).
    { rewrite firstn_length, app_length, Hlen. destruct Hc as [-> |[Hlt ->]]; cbn [length]; nia. }
    rewrite El. rewrite Nat.mod_mul by lia. change (0 =? 0)%nat with true. cbn iota. now rewrite Nat.div_mul by lia.
  - f_equal. rewrite app_length, Hlen. destruct Hc as [-> |[Hlt ->]].
    + apply Nat.min_l. apply Nat.div_le_lower_bound; lia.
    + cbn [length]. rewrite Nat.add_0_r, Nat.div_mul by lia. lia.
Qed.
Lemma items_width prefix t x : In x (table_columns prefix t) -> c_items (fst x) = None -> snd (snd x) = c_bytes (fst x).
Proof.
  intros Hx Hi. unfold table_columns in Hx. apply in_flat_map in Hx as ([b c] & _ & Hx). cbn [fst snd] in Hx. apply in_map_iff in Hx as (w & <- & Hw).
  cbn [fst snd] in *. unfold column_cells in Hw. rewrite Hi in Hw. destruct Hw as [<-|[]]. reflexivity.
Qed.
Lemma frame_read : forall load bits fuel m name t blk bb suffix bytes c mem pre rows post count kinds,
  says_table m t -> named m blk -> may_hold m $"BYTES" bb -> row_measures m None suffix (Some bytes) ->
  good_table blk t -> name <> $"CONTAINER" -> (3 <= fuel)%nat -> last_column_ends t c ->
  0 <= column_end c <= bytes + opt0 suffix -> 0 < bytes + opt0 suffix ->
  Forall (fun x => 0 <= fst x) (table_cells 0 t) ->
  Forall (fun row => Z.of_nat (length row) = bytes + opt0 suffix) rows ->
  (count = length rows \/ (length rows < count)%nat /\ post = []) ->
  binary_block m name count ->
  let cols := table_columns 0 t in
  let names := map (fun x => c_name (fst x)) cols in
  let padded := column_end c <? bytes + opt0 suffix in
  let scales := factors c_scale cols padded in
  let shifts := factors c_shift cols padded in
  Forall plain_name names -> Forall2 kind_of_column cols kinds -> (In IbmShort kinds -> rows <> []) ->
  usable_factors scales -> usable_factors shifts -> Forall2 (may_scale scales shifts) cols kinds ->
  exists frame, read_table from_vax32 cp500 load bits fuel mem (pre ++ concat rows ++ post) m name (length pre) = Ok frame /\
    length frame = length cols /\
    forall i x k, nth_error cols i = Some x -> nth_error kinds i = Some k ->
      exists col, nth_error frame i = Some col /\ frame_name names i (k_name col) /\
        column_holds from_vax32 cp500 scales shifts rows x k col.
Proof.
  intros load bits fuel m name t blk bb suffix bytes c mem pre rows post count kinds Hs Hn Hb Hm Hg Hna Hf Hl He Hp Hnn Hrows Hcount HB cols names padded scales shifts Hnames Hkinds Hibm Us Ush Hsc.
  destruct (row_length load bits fuel m name t blk bb suffix bytes c Hs Hn Hb Hm Hg Hna Hf Hl He) as (fr' & tail' & E' & _ & Hw).
  destruct (rows_along load bits fuel m name t blk bb None suffix (Some bytes) Hs Hn Hb Hm Hg Hna Hf) as (fr & tail & E & Ht & Hc & Hk & Hby & nm & Hnm & Hnames').
  rewrite E in E'. injection E' as <- <-. change (opt0 None) with 0 in *. fold cols in Hc, Hk, Hby, Hnm.
  (* one list *)
  destruct (zip3 fr cols kinds) as (ml & Efr & Ecols & Ekinds).
  { apply (f_equal (@length _)) in Hc. now rewrite !map_length in Hc. }
  { exact (Forall2_length Hkinds). }
  assert (HM : forall p, In p ml -> described_ok p).
  { intros [o [x k]] Hin. unfold described_ok.
    assert (Hx : In x cols) by (rewrite <- Ecols; exact (in_map (fun p : described => fst (snd p)) ml _ Hin)).
    rewrite <- Efr, <- Ecols, !map_map in Hc, Hk, Hby.
    pose proof (map_eq_in _ _ _ Hc _ Hin) as Q1. pose proof (map_eq_in _ _ _ Hk _ Hin) as Q2. pose proof (map_eq_in _ _ _ Hby _ Hin) as Q3. cbn [fst snd] in Q1, Q2, Q3.
    rewrite <- Ecols, <- Ekinds in Hkinds. pose proof (F2_zip _ _ Hkinds _ Hin) as Q4. cbn [fst snd] in Q4.
    repeat (split; [assumption|]). now apply (items_width 0 t). }
  (* the end of the rows *)
  assert (Htail : match tail with Some _ => padded = true | None => padded = false end).
  { destruct Hl as ((t' & ->) & Hi & _).
    assert (Ec : cols = table_columns 0 t' ++ [(c, (0 + (c_start c - 1), c_bytes c))]).
    { unfold cols, table_columns, table_places. rewrite !flat_map_app. cbn [flat_map places fst snd app]. unfold column_cells. now rewrite Hi. }
    rewrite Ec in Hc, Hby. destruct fr as [|o front _] using rev_ind; [destruct (table_columns 0 t'); discriminate|].
    rewrite !map_app in Hc, Hby. cbn [map] in Hc, Hby. apply app_inj_tail in Hc as [_ Hc]. apply app_inj_tail in Hby as [_ Hby]. unfold cell_of in Hc. injection Hc as Ho _. cbn [fst] in Hby.
    unfold tail_row in Ht. rewrite rev_app_distr in Ht. cbn [rev app i_bytes i_suffix] in Ht. rewrite Ho, Hby in Ht. injection Ht as <-. unfold padded, column_end.
    destruct (0 <? _) eqn:P; [apply Z.ltb_lt in P; apply Z.ltb_lt|apply Z.ltb_ge in P; apply Z.ltb_ge]; lia. }
  assert (ND : NoDup (map (fun o => r_name (o_row o)) fr)).
  { rewrite Hnames'. apply C26_names_become_unique.
    - intros n s Hin. assert (X : In n (map fst nm)) by exact (in_map fst nm (n, s) Hin). rewrite Hnm in X. fold names in X. rewrite Forall_forall in Hnames. now apply Hnames.
    - intros s Hin. assert (X : In $"RESERVED" (map fst nm)) by exact (in_map fst nm ($"RESERVED", s) Hin). rewrite Hnm in X. fold names in X. rewrite Forall_forall in Hnames. now destruct (Hnames _ X) as (_ & Y & _). }
  assert (NM : forall i o, nth_error fr i = Some o -> frame_name names i (r_name (o_row o))).
  { intros i o Hi. unfold names. rewrite <- Hnm. assert (X : nth_error (reindex_names nm) i = Some (r_name (o_row o))) by (rewrite <- Hnames', nth_error_map, Hi; reflexivity).
    assert (Y : exists n s, nth_error nm i = Some (n, s)).
    { destruct (nth_error nm i) as [[n s]|] eqn:En; [eauto|]. apply nth_error_None in En. rewrite <- (C26_length_kept nm) in En. apply nth_error_None in En. congruence. }
    destruct Y as (n & s & Hns). apply (reindexed_name nm i n s); [exact Hns| |exact X].
    assert (Z : In n names) by (unfold names; rewrite <- Hnm; apply (in_map fst _ (n, s)); eapply nth_error_In, Hns). rewrite Forall_forall in Hnames. now destruct (Hnames n Z) as (_ & W & _). }
  assert (NP : forall o, In o fr -> contains $"PLACEHOLDER" (r_name (o_row o)) = false).
  { intros o Ho. apply In_nth_error in Ho as [i Hi]. apply not_mentioned. eapply frame_plain; [exact Hnames|exact (NM i o Hi)]. }
  (* reading *)
  unfold read_table. rewrite E. cbn [rbind fst snd].
  assert (PA : probably_ascii m fr name = false).
  { unfold probably_ascii, looks_like_ascii. destruct HB as (B1 & B2 & B3 & _). rewrite (not_mentioned _ _ B1), (not_mentioned _ _ B2). cbn [orb]. rewrite orb_false_iff. split.
    - apply not_true_iff_false. intros X. apply existsb_exists in X as (o & Ho & X). rewrite <- Efr in Ho. apply in_map_iff in Ho as (p & <- & Hin).
      specialize (HM p Hin). destruct (described_type p HM) as [_ (ty & Er & Ec)]. rewrite Er in X. destruct p as [o [x k]]. cbn [fst snd] in *.
      destruct HM as (_ & _ & _ & (ty' & Et & _ & NA & _) & _). rewrite Ec in Et. injection Et as <-. rewrite (not_mentioned _ _ NA) in X. discriminate X.
    - destruct (md_get m $"INTERCHANGE_FORMAT") as [[]|]; try reflexivity. apply str_eqb_neq. congruence. }
  rewrite PA. unfold interpret_as_binary.
  assert (ET : rmap (fun o => cell_type (o_row o)) fr = Ok (map type_of ml)).
  { rewrite <- Efr. clear - HM. induction ml as [|p ml IH]; [reflexivity|]. cbn [map rmap]. rewrite (proj1 (described_type p (HM p (or_introl eq_refl)))). cbn [rbind].
    rewrite IH; [reflexivity|]. intros q Hq. apply HM. now right. }
  rewrite ET. cbn [rbind].
  assert (ED : has_dup (map (fun o => r_name (o_row o)) fr ++ match tail with Some _ => [tail_name] | None => [] end) = false).
  { apply has_dup_iff. destruct tail; [|now rewrite app_nil_r]. apply NoDup_app_one; [exact ND|]. intros X. apply in_map_iff in X as (o & Eo & Ho).
    specialize (NP o Ho). rewrite Eo in NP. discriminate NP. }
  rewrite ED.
  assert (EC : rows_count m = Ok count).
  { unfold rows_count. destruct HB as (_ & _ & _ & [-> |[-> ->]]); [|reflexivity]. cbn [axis_size]. assert (X : (Z.of_nat count <? 0) = false) by (apply Z.ltb_ge; lia). now rewrite X, Nat2Z.id. }
  rewrite EC. cbn [rbind]. cbv zeta.
  replace (combine fr (map type_of ml)) with (map (fun p : described => (fst p, type_of p)) ml) by (rewrite <- Efr; symmetry; apply combine_map).
  assert (EW : row_size (map (fun p : described => (fst p, type_of p)) ml) tail = bytes + opt0 suffix).
  { rewrite <- Hw. unfold row_size, dtype_itemsize. cbn [fst snd]. rewrite <- Efr, !map_map. f_equal. f_equal. apply map_ext_in. intros p Hin. cbn [fst snd].
    now rewrite (proj1 (described_width p (HM p Hin))). }
  rewrite EW. set (W := bytes + opt0 suffix) in *. set (L := Z.to_nat W).
  assert (HL : Forall (fun r => length r = L) rows) by (eapply Forall_impl; [|exact Hrows]; intros r Hr; cbv beta in *; lia).
  rewrite (rows_in_ok mem pre rows post count L HL ltac:(lia) Hcount). cbn [rbind].
  assert (BD : forall p, In p ml -> 0 <= fst (snd (fst (snd p))) /\ fst (snd (fst (snd p))) + snd (snd (fst (snd p))) <= Z.of_nat L).
  { intros p Hin. assert (Hx : In (snd (fst (snd p))) (table_cells 0 t)).
    { rewrite <- columns_cells. apply in_map. fold cols. rewrite <- Ecols. exact (in_map (fun p : described => fst (snd p)) ml p Hin). }
    destruct Hl as (_ & _ & Hends). rewrite Forall_forall in Hends, Hnn. specialize (Hends _ Hx). specialize (Hnn _ Hx). lia. }
  destruct (rmap_all (converted_ok from_vax32 cp500 rows) (fun p : described => do ty <- type_name (o_row (fst p));
       do c <- convert_column from_vax32 cp500 ty (r_bytes (o_row (fst p))) (type_of p)
                 (field_bytes (pre ++ concat rows ++ post) (length pre) (Z.of_nat L) (length rows) (fst p, type_of p));
       Ok (mkFC (r_name (o_row (fst p))) (fst c) (snd c))) ml) as (raw & Eraw & Fraw).
  { intros p Hin. apply convert_described; [now apply HM|exact HL|apply (BD p Hin)|apply (BD p Hin)|].
    intros K. apply Hibm. rewrite <- Ekinds, <- K. exact (in_map (fun p : described => snd (snd p)) ml p Hin). }
  assert (EX : rmap (fun x : orow * tmeaning => do ty <- type_name (o_row (fst x));
       do c <- convert_column from_vax32 cp500 ty (r_bytes (o_row (fst x))) (snd x) (field_bytes (pre ++ concat rows ++ post) (length pre) W (length rows) x);
       Ok (mkFC (r_name (o_row (fst x))) (fst c) (snd c))) (map (fun p : described => (fst p, type_of p)) ml) = Ok raw).
  { rewrite <- Eraw. replace (Z.of_nat L) with W by lia. clear. induction ml as [|p ml IH]; [reflexivity|]. cbn [map rmap fst snd]. rewrite IH. reflexivity. }
  rewrite EX. cbn [rbind].
  assert (ER : drop_placeholders raw = raw).
  { apply filter_all. apply Forall_forall. intros col Hcol. apply In_nth_error in Hcol as [i Hi].
    assert (X : exists p, nth_error ml i = Some p).
    { destruct (nth_error ml i) as [p|] eqn:Ep; [eauto|]. apply nth_error_None in Ep. assert (X := Forall2_length Fraw). assert (Y : (length raw <= i)%nat) by (rewrite <- X; exact Ep). apply nth_error_None in Y. congruence. }
    destruct X as [p Hp']. destruct (F2_index _ _ _ _ _ Fraw Hp') as (col' & Hi' & (En & _)). rewrite Hi in Hi'. injection Hi' as <-. rewrite En.
    rewrite NP; [reflexivity|]. rewrite <- Efr. apply in_map. eapply nth_error_In, Hp'. }
  rewrite ER.
  destruct (rmap_over _ (fun p col => k_name col = r_name (o_row (fst p)) /\ column_holds from_vax32 cp500 scales shifts rows (fst (snd p)) (snd (snd p)) col)
     (scale_column fr tail) ml raw Fraw) as (frame & Efm & Ffm).
  { intros p col Hin (C1 & C2 & C3). unfold scale_column. rewrite C1.
    rewrite (find_named (fun o => r_name (o_row o)) fr (fst p) ND) by (rewrite <- Efr; now apply in_map).
    assert (KS : map (fun o => r_scale (o_row o)) fr ++ match tail with Some _ => [None] | None => [] end = scales).
    { unfold scales, factors. f_equal; [|destruct tail; now rewrite Htail]. rewrite <- Efr, <- Ecols, !map_map. apply map_ext_in. intros [o [x k]] Hq. cbn [fst snd].
      destruct (HM _ Hq) as (_ & X & _). unfold row_keys, col_keys in X. now injection X. }
    assert (KO : map (fun o => r_shift (o_row o)) fr ++ match tail with Some _ => [None] | None => [] end = shifts).
    { unfold shifts, factors. f_equal; [|destruct tail; now rewrite Htail]. rewrite <- Efr, <- Ecols, !map_map. apply map_ext_in. intros [o [x k]] Hq. cbn [fst snd].
      destruct (HM _ Hq) as (_ & X & _). unfold row_keys, col_keys in X. now injection X. }
    rewrite KS, KO. pose proof (HM p Hin) as Hd. destruct p as [o [x k]]. cbn [fst snd] in *. destruct Hd as (_ & Hkeys & _ & (ty & _ & Kx & _) & _).
    unfold row_keys, col_keys in Hkeys. injection Hkeys as _ K1 K2. rewrite K1, K2.
    assert (Hx : In x cols) by (rewrite <- Ecols; exact (in_map (fun p : described => fst (snd p)) ml _ Hin)).
    destruct (amount_ok scales (c_scale (fst x))) as (a & Aa & Ga); [unfold scales, factors; apply in_or_app; left; exact (in_map (fun x => c_scale (fst x)) cols x Hx)|exact Us|].
    destruct (amount_ok shifts (c_shift (fst x))) as (b & Ab & Gb); [unfold shifts, factors; apply in_or_app; left; exact (in_map (fun x => c_shift (fst x)) cols x Hx)|exact Ush|].
    rewrite <- Ecols, <- Ekinds in Hsc. pose proof (F2_zip _ _ Hsc _ Hin a b) as MS. cbn [fst snd] in MS. specialize (MS Aa Ab).
    unfold width_of in C2, C3. cbn [fst snd] in C2, C3. destruct col as [cn ct cv]. cbn [k_name k_values k_type] in *.
    assert (NO : a = None /\ b = None -> k <> Number MSB Pair -> match k with Number _ _ => False | _ => True end ->
      exists z, (do col <- apply_if OMul (pd_entry scales (c_scale (fst x))) (mkFC cn ct cv); apply_if OAdd (pd_entry shifts (c_shift (fst x))) col) = Ok z /\
        k_name z = r_name (o_row o) /\ column_holds from_vax32 cp500 scales shifts rows x k z).
    { intros [-> ->] _ NK. unfold apply_if. rewrite Ga, Gb. cbn [option_map rbind]. eexists. split; [reflexivity|]. split; [exact C1|]. exists cv. split; [exact C2|].
      now destruct k. }
    destruct k as [ord f| | | | | | |]; try (apply NO; [exact MS|discriminate|exact I]). clear NO. destruct MS as [F1 F2]. cbv zeta in F1, F2. subst ct.
    set (w := Z.to_nat (snd (snd x))) in *.
    assert (PT : Scaling.proper_type (number_type f w)).
    { inversion Kx as [o' f' T' _ _ _ Eo| | | | | | |]; subst. apply pds3_width in T'. destruct f as [s| |]; cbn [number_type]; [now apply width_int| |]; destruct (w =? 4)%nat; exact I. }
    assert (AN : all_nums cv).
    { clear - C2. induction C2 as [|row v rs vs (y & -> & _) _ IH]; constructor; [now exists y|exact IH]. }
    destruct (apply_ok OMul _ a cn _ cv Ga PT F1 AN) as (mid & Em & Om & Nm & Pm). cbv zeta in Em, Om, Pm. rewrite Em. cbn [rbind].
    destruct (apply_ok OAdd _ b cn _ mid Gb Pm F2 Nm) as (fin & Ef & Of & _ & _). cbv zeta in Ef, Of. rewrite Ef. eexists. split; [reflexivity|]. split; [exact C1|].
    exists cv. split; [exact C2|]. exists a, b. eexists _, _, _. repeat (split; [eassumption|]). reflexivity. }
  rewrite Efm. exists frame. split; [reflexivity|]. split.
  - rewrite <- (Forall2_length Ffm), <- Ecols. now rewrite map_length.
  - intros i x k Hi Hki. rewrite <- Ecols, nth_error_map in Hi. rewrite <- Ekinds, nth_error_map in Hki. destruct (nth_error ml i) as [[o [x' k']]|] eqn:Ei; [|discriminate].
    cbn in Hi, Hki. injection Hi as ->. injection Hki as ->. destruct (F2_index _ _ _ _ _ Ffm Ei) as (col & Hcol & (N & H)). exists col. split; [exact Hcol|].
    split; [|exact H]. rewrite N. apply NM. rewrite <- Efr, nth_error_map, Ei. reflexivity.
Qed.
End Foreign.
(** A table whose columns are where the label says (as in C25): the frame has a column for
    each item of each column, under its name, with in each row the value that the cell's
    bytes have in the column's type; of numbers, times the factor and plus the offset. *)
Theorem C74_factors_applied : forall from_vax32 cp500 load bits fuel m name t blk bb suffix bytes c mem pre rows post count kinds,
  says_table m t -> named m blk -> may_hold m $"BYTES" bb -> row_measures m None suffix (Some bytes) ->
  good_table blk t -> name <> $"CONTAINER" -> (3 <= fuel)%nat -> last_column_ends t c ->
  0 <= column_end c <= bytes + opt0 suffix -> 0 < bytes + opt0 suffix ->
  Forall (fun x => 0 <= fst x) (table_cells 0 t) ->
  Forall (fun row => Z.of_nat (length row) = bytes + opt0 suffix) rows ->
  (count = length rows \/ (length rows < count)%nat /\ post = []) ->
  binary_block m name count ->
  let cols := table_columns 0 t in
  let names := map (fun x => c_name (fst x)) cols in
  let padded := column_end c <? bytes + opt0 suffix in
  let scales := factors c_scale cols padded in
  let shifts := factors c_shift cols padded in
  Forall plain_name names -> Forall2 kind_of_column cols kinds -> (In IbmShort kinds -> rows <> []) ->
  usable_factors scales -> usable_factors shifts -> Forall2 (may_scale scales shifts) cols kinds ->
  exists frame, read_table from_vax32 cp500 load bits fuel mem (pre ++ concat rows ++ post) m name (length pre) = Ok frame /\
    length frame = length cols /\
    forall i x k, nth_error cols i = Some x -> nth_error kinds i = Some k ->
      exists col, nth_error frame i = Some col /\ frame_name names i (k_name col) /\
        column_holds from_vax32 cp500 scales shifts rows x k col.
Proof. exact frame_read. Qed.
Print Assumptions C74_factors_applied.
Lemma factors_none get cols padded : Forall (fun x : column * (Z * Z) => get (fst x) = None) cols -> usable_factors (factors get cols padded).
Proof.
  intros H. assert (F : Forall (fun v => v = None) (factors get cols padded)).
  { unfold factors. apply Forall_app. split; [now apply Forall_map|destruct padded; repeat constructor]. }
  split; [eapply Forall_impl; [|exact F]; intros v ->; now left|]. intros z Hz. rewrite Forall_forall in F. discriminate (F _ Hz).
Qed.
(** The same of a table without factors and offsets. *)
Theorem C73_values : forall from_vax32 cp500 load bits fuel m name t blk bb suffix bytes c mem pre rows post count kinds,
  says_table m t -> named m blk -> may_hold m $"BYTES" bb -> row_measures m None suffix (Some bytes) ->
  good_table blk t -> name <> $"CONTAINER" -> (3 <= fuel)%nat -> last_column_ends t c ->
  0 <= column_end c <= bytes + opt0 suffix -> 0 < bytes + opt0 suffix ->
  Forall (fun x => 0 <= fst x) (table_cells 0 t) ->
  Forall (fun row => Z.of_nat (length row) = bytes + opt0 suffix) rows ->
  (count = length rows \/ (length rows < count)%nat /\ post = []) ->
  binary_block m name count ->
  let cols := table_columns 0 t in
  let names := map (fun x => c_name (fst x)) cols in
  Forall plain_name names -> Forall2 kind_of_column cols kinds -> (In IbmShort kinds -> rows <> []) ->
  Forall (fun x => c_scale (fst x) = None /\ c_shift (fst x) = None) cols ->
  exists frame, read_table from_vax32 cp500 load bits fuel mem (pre ++ concat rows ++ post) m name (length pre) = Ok frame /\
    length frame = length cols /\
    forall i x k, nth_error cols i = Some x -> nth_error kinds i = Some k ->
      exists col, nth_error frame i = Some col /\ frame_name names i (k_name col) /\
        Forall2 (fun row v => cell_value from_vax32 cp500 k (Z.to_nat (snd (snd x))) (cell_in row (snd x)) v) rows (k_values col) /\
        match k with Number _ f => k_type col = CT (number_type f (Z.to_nat (snd (snd x)))) | _ => True end.
Proof.
  intros from_vax32 cp500 load bits fuel m name t blk bb suffix bytes c mem pre rows post count kinds Hs Hn Hb Hm Hg Hna Hf Hl He Hp Hnn Hrows Hcount HB cols names Hnames Hkinds Hibm Hno.
  assert (N1 : Forall (fun x : column * (Z * Z) => c_scale (fst x) = None) cols) by (eapply Forall_impl; [|exact Hno]; now intros x [H _]).
  assert (N2 : Forall (fun x : column * (Z * Z) => c_shift (fst x) = None) cols) by (eapply Forall_impl; [|exact Hno]; now intros x [_ H]).
  assert (NA : forall all a, amount all None a -> a = None) by (intros all a H; now inversion H).
  destruct (frame_read from_vax32 cp500 load bits fuel m name t blk bb suffix bytes c mem pre rows post count kinds Hs Hn Hb Hm Hg Hna Hf Hl He Hp Hnn Hrows Hcount HB Hnames Hkinds Hibm
    (factors_none _ _ _ N1) (factors_none _ _ _ N2)) as (frame & E & L & H).
  { fold cols. generalize (factors c_scale cols (column_end c <? bytes + opt0 suffix)) (factors c_shift cols (column_end c <? bytes + opt0 suffix)). intros sc sh.
    clear - Hkinds Hno NA. fold cols in Hkinds. induction Hkinds as [|x k l l' _ _ IH]; constructor; [|apply IH; now inversion Hno].
    inversion Hno as [|? ? [E1 E2] _]; subst. intros a b Ha Hb. rewrite E1 in Ha. rewrite E2 in Hb. apply NA in Ha, Hb. subst. destruct k; cbn; auto. unfold fits. destruct (number_type _ _); auto. }
  exists frame. split; [exact E|]. split; [exact L|]. intros i x k Hi Hk. destruct (H i x k Hi Hk) as (col & Hc & Hnm & (raw & R1 & R2)). exists col. split; [exact Hc|]. split; [exact Hnm|].
  assert (Hx : In x cols) by (eapply nth_error_In, Hi). rewrite Forall_forall in Hno. destruct (Hno x Hx) as [E1 E2].
  destruct k; try (subst raw; split; [exact R1|exact I]).
  destruct R2 as (a & b & d & mid & d' & Aa & Ab & O1 & O2 & T). rewrite E1 in Aa. rewrite E2 in Ab. apply NA in Aa, Ab. subst. cbn [operated] in O1, O2. injection O1 as -> ->. injection O2 as -> <-. auto.
Qed.
Print Assumptions C73_values.

(** ** Errors *)
Lemma rmap_fails {A B} (f : A -> res B) l x : In x l -> (exists e, f x = Err e) -> exists e, rmap f l = Err e.
Proof.
  induction l as [|y l IH]; intros Hin He; [contradiction|]. cbn [rmap]. destruct (f y) as [b|e] eqn:E; cbn [rbind]; [|now exists e].
  destruct Hin as [->|Hx]; [destruct He as [e He]; congruence|]. destruct (IH Hx He) as [e ->]. now exists e.
Qed.
(** A column without a type, or of a type that pdr does not know, is never guessed: the
    table is not read. *)
Theorem C73_unknown_types_fail : forall from_vax32 cp500 load bits fuel m name t blk bb prefix suffix bytes mem file start x,
  says_table m t -> named m blk -> may_hold m $"BYTES" bb -> row_measures m prefix suffix bytes ->
  good_table blk t -> name <> $"CONTAINER" -> (3 <= fuel)%nat ->
  In x (table_columns (opt0 prefix) t) ->
  (c_type (fst x) = None \/ exists ty, c_type (fst x) = Some ty /\ ~ integer_name (underscored ty) /\ ~ In (underscored ty) known_names) ->
  exists e, read_table from_vax32 cp500 load bits fuel mem file m name start = Err e.
Proof.
  intros from_vax32 cp500 load bits fuel m name t blk bb prefix suffix bytes mem file start x Hs Hn Hb Hm Hg Hc Hf Hx Ht.
  destruct (rows_along load bits fuel m name t blk bb prefix suffix bytes) as (rows & tail & E & _ & _ & Hk & _); auto.
  unfold read_table. rewrite E. cbn [rbind fst]. destruct (probably_ascii m rows name); [now eexists|].
  apply In_nth_error in Hx as [i Hi]. assert (X : nth_error (map (fun o => row_keys (o_row o)) rows) i = Some (col_keys (fst x))) by (rewrite Hk, nth_error_map, Hi; reflexivity).
  rewrite nth_error_map in X. destruct (nth_error rows i) as [o|] eqn:Eo; [|discriminate]. cbn in X. unfold row_keys, col_keys in X. injection X as X _ _. apply nth_error_In in Eo.
  destruct (rmap_fails (fun o => cell_type (o_row o)) rows o Eo) as [e Ee]; [|unfold interpret_as_binary; rewrite Ee; now exists e].
  unfold cell_type, type_name. rewrite X. destruct Ht as [->|(ty & -> & T1 & T2)]; [now eexists|]. cbn [option_map rbind].
  destruct (Properties.Types.C17_unknown ty (Z.to_nat (cell_width (o_row o))) true T1 T2) as [e' ->]. now eexists.
Qed.
Print Assumptions C73_unknown_types_fail.

(** ** Cases *)
Definition typed_column (n : str) (s b : Z) (ty : str) (more : multidict) : str * pv := ex_column n s b (($"DATA_TYPE", PStr ty) :: more).
Definition bytes_ (l : list nat) : list ascii := map ascii_of_nat l.
(** two rows of a 2-byte integer, to be halved and moved by 10, three characters, an IBM
    real and a byte of padding *)
Definition ex_counts : multidict :=
  [($"ROWS", PInt 2); ($"ROW_BYTES", PInt 10);
   typed_column $"A" 1 2 $"LSB_UNSIGNED_INTEGER" [($"SCALING_FACTOR", PFloat (1 # 2)); ($"OFFSET", PInt 10)];
   typed_column $"T" 3 3 $"CHARACTER" []; typed_column $"R" 6 4 $"IBM_REAL" []].
Definition ex_A : column := mkCol $"A" 1 2 None (Some $"LSB_UNSIGNED_INTEGER") (Some (PFloat (1 # 2))) (Some (PInt 10)).
Definition ex_T : column := mkCol $"T" 3 3 None (Some $"CHARACTER") None None.
Definition ex_R : column := mkCol $"R" 6 4 None (Some $"IBM_REAL") None None.
Definition ex_elements : list element := [Column ex_A; Column ex_T; Column ex_R].
Definition ex_rows : list (list ascii) := [bytes_ [1; 2; 65; 66; 0; 194; 118; 160; 0; 7]; bytes_ [255; 255; 67; 0; 68; 65; 16; 0; 0; 7]]%nat.
Ltac unmentioned := unfold mentions; rewrite <- contains_iff; discriminate.
Ltac a_plain := split; [intros (a & k & E); assert (X : contains $"_" (a ++ $"_" ++ str_of_nat k) = true) by (apply contains_iff; eauto); unfold numbered in E; rewrite <- E in X; discriminate X|split; [discriminate|unmentioned]].
Example C73_meets :
  says_table ex_counts ex_elements /\ good_table None ex_elements /\ row_measures ex_counts None None (Some 10) /\
  last_column_ends ex_elements ex_R /\ binary_block ex_counts $"TABLE" 2 /\
  Forall (fun row => Z.of_nat (length row) = 10) ex_rows /\
  table_columns 0 ex_elements = [(ex_A, (0, 2)); (ex_T, (2, 3)); (ex_R, (5, 4))] /\
  Forall plain_name [$"A"; $"T"; $"R"] /\
  Forall2 kind_of_column (table_columns 0 ex_elements) [Number LSB (Integer false); Characters; IbmShort] /\
  usable_factors [Some (PFloat (1 # 2)); None; None; None] /\ usable_factors [Some (PInt 10); None; None; None] /\
  Forall2 (may_scale [Some (PFloat (1 # 2)); None; None; None] [Some (PInt 10); None; None; None]) (table_columns 0 ex_elements) [Number LSB (Integer false); Characters; IbmShort] /\
  exists frame, read_table (fun _ => NaN) (fun c => c) ex_load (fun f _ => Ok f) 5 false (bytes_ [9]%nat ++ concat ex_rows) ex_counts $"TABLE" 1 = Ok frame /\
    map k_name frame = [$"A"; $"T"; $"R"] /\
    map k_type frame = [CT DF64; CObject; CT DF32] /\
    Forall2 (Forall2 (fun v u => match v, u with VNum (EF (Fin p)), VNum (EF (Fin q)) => (p == q)%Q | _, _ => v = u end)) (map k_values frame)
      [[VNum (EF (Fin (533 # 2))); VNum (EF (Fin (65555 # 2)))]; [VBytes $"AB"; VBytes (bytes_ [67; 0; 68]%nat)]; [VNum (EF (Fin (-1898 # 16))); VNum (EF (Fin 1))]].
Proof.
  split; [|split; [|split; [|split; [|split; [|split; [|split; [|split; [|split; [|split; [|split; [|split]]]]]]]]]]].
  - split; [|reflexivity]. apply other_item; [not_in|not_ptr|]. apply other_item; [not_in|not_ptr|].
    apply part_item; [cbn; tauto|a_column|]. apply part_item; [cbn; tauto|a_column|]. apply part_item; [cbn; tauto|a_column|]. constructor.
  - split; [|split; [|split; [|split]]].
    + eexists _, _. split; [reflexivity|]. apply adj_column. apply adj_column. constructor.
    + repeat constructor; try (intros; discriminate).
    + constructor.
    + discriminate.
    + vm_compute. constructor.
  - repeat split; reflexivity.
  - split; [eexists [_; _]; reflexivity|]. split; [reflexivity|]. vm_compute. repeat constructor; discriminate.
  - split; [unmentioned|]. split; [unmentioned|]. split; [discriminate|]. left. reflexivity.
  - repeat constructor.
  - reflexivity.
  - constructor; [a_plain|]. constructor; [a_plain|]. constructor; [a_plain|]. constructor.
  - constructor; [|constructor; [|constructor; [|constructor]]].
    + eexists. split; [reflexivity|]. split; [|split; [unmentioned|intros [E|E]; discriminate E]]. apply is_number.
      * apply p_integer.
        -- split; [right; exists $"LSB_UNSIGNED_", []; reflexivity|]. rewrite <- contains_iff. discriminate.
        -- cbn. auto.
        -- split; [intros _|reflexivity]. exists $"LSB", $"_UNSIGNED_INTEGER". split; [cbn; auto|reflexivity].
        -- split; [intros _|reflexivity]. exists $"LSB_", $"_INTEGER". reflexivity.
      * discriminate.
      * intros (p & rest & [<-|[<-|[]]] & E & _); discriminate E.
      * unmentioned.
    + eexists. split; [reflexivity|]. split; [|split; [unmentioned|intros [E|E]; discriminate E]]. apply is_characters; [cbn; auto|cbn; lia].
    + eexists. split; [reflexivity|]. split; [|split; [unmentioned|reflexivity]]. now apply is_ibm_short.
  - split; [|intros z Hz; cbn in Hz; repeat (destruct Hz as [Hz|Hz]; [discriminate Hz|]); contradiction].
    constructor; [right; right; now eexists|]. repeat constructor.
  - split; [constructor; [right; left; now eexists|repeat constructor]|]. intros z [E|Hz]; [injection E as <-; vm_compute; discriminate|].
    cbn in Hz. repeat (destruct Hz as [Hz|Hz]; [discriminate Hz|]). contradiction.
  - constructor; [|constructor; [|constructor; [|constructor]]]; intros a b Ha Hb; cbn in Ha, Hb; inversion Ha; subst; inversion Hb; subst; cbn; auto; try tauto. match goal with H : (_ == 0)%Q |- _ => discriminate H end.
  - eexists. split; [vm_compute; reflexivity|]. split; [reflexivity|]. split; [reflexivity|]. cbn [map k_values].
    repeat constructor.
Qed.

(** ** What can go wrong *)
Definition read_ex_table (m : multidict) (file : list ascii) : res (list framecol) :=
  read_table (fun _ => NaN) (fun c => c) ex_load (fun f _ => Ok f) 5 false file m $"TABLE" 0.
(** Integer columns with integer factors stay of their type: 200 times 2 is 144, without a
    warning. *)
Theorem C74_wraps_refuted : exists m c, says_table m [Column c] /\ c_scale c = Some (PInt 2) /\
  read_ex_table m (bytes_ [200]%nat) = Ok [mkFC (c_name c) (CT (DInt false 1)) [VNum (EI 144)]].
Proof.
  exists [($"ROWS", PInt 1); ($"ROW_BYTES", PInt 1); typed_column $"A" 1 1 $"UNSIGNED_INTEGER" [($"SCALING_FACTOR", PInt 2)]],
    (mkCol $"A" 1 1 None (Some $"UNSIGNED_INTEGER") (Some (PInt 2)) None).
  split; [split; [|reflexivity]; do 2 (apply other_item; [not_in|not_ptr|]); apply part_item; [cbn; tauto|a_column|constructor]|].
  split; [reflexivity|]. vm_compute. reflexivity.
Qed.
Print Assumptions C74_wraps_refuted.
(** The same column next to one without a factor: integer factors are doubles then, and the
    product is right. *)
Theorem C74_other_columns_matter : exists m c c', says_table m [Column c; Column c'] /\ c_scale c = Some (PInt 2) /\ c_scale c' = None /\
  exists q, read_ex_table m (bytes_ [200; 7]%nat) = Ok [mkFC (c_name c) (CT DF64) [VNum (EF (Fin q))]; mkFC (c_name c') (CT (DInt false 1)) [VNum (EI 7)]] /\ (q == 400)%Q.
Proof.
  exists [($"ROWS", PInt 1); ($"ROW_BYTES", PInt 2); typed_column $"A" 1 1 $"UNSIGNED_INTEGER" [($"SCALING_FACTOR", PInt 2)]; typed_column $"B" 2 1 $"UNSIGNED_INTEGER" []],
    (mkCol $"A" 1 1 None (Some $"UNSIGNED_INTEGER") (Some (PInt 2)) None), (mkCol $"B" 2 1 None (Some $"UNSIGNED_INTEGER") None None).
  split; [split; [|reflexivity]; do 2 (apply other_item; [not_in|not_ptr|]); do 2 (apply part_item; [cbn; tauto|a_column|]); constructor|].
  split; [reflexivity|]. split; [reflexivity|]. eexists. split; [vm_compute; reflexivity|]. reflexivity.
Qed.
Print Assumptions C74_other_columns_matter.
(** A factor of 0 is ignored, though any number times 0 is 0. *)
Theorem C74_zero_factor_refuted : exists m c, says_table m [Column c] /\ c_scale c = Some (PInt 0) /\
  read_ex_table m (bytes_ [200]%nat) = Ok [mkFC (c_name c) (CT (DInt false 1)) [VNum (EI 200)]].
Proof.
  exists [($"ROWS", PInt 1); ($"ROW_BYTES", PInt 1); typed_column $"A" 1 1 $"UNSIGNED_INTEGER" [($"SCALING_FACTOR", PInt 0)]],
    (mkCol $"A" 1 1 None (Some $"UNSIGNED_INTEGER") (Some (PInt 0)) None).
  split; [split; [|reflexivity]; do 2 (apply other_item; [not_in|not_ptr|]); apply part_item; [cbn; tauto|a_column|constructor]|].
  split; [reflexivity|]. vm_compute. reflexivity.
Qed.
Print Assumptions C74_zero_factor_refuted.
(** An integer factor that is not of the column's type: the table is not read at all. *)
Theorem C74_large_factor_refuted : exists m c, says_table m [Column c] /\ c_scale c = Some (PInt 1000) /\
  read_ex_table m (bytes_ [2]%nat) = Err OverflowError.
Proof.
  exists [($"ROWS", PInt 1); ($"ROW_BYTES", PInt 1); typed_column $"A" 1 1 $"UNSIGNED_INTEGER" [($"SCALING_FACTOR", PInt 1000)]],
    (mkCol $"A" 1 1 None (Some $"UNSIGNED_INTEGER") (Some (PInt 1000)) None).
  split; [split; [|reflexivity]; do 2 (apply other_item; [not_in|not_ptr|]); apply part_item; [cbn; tauto|a_column|constructor]|].
  split; [reflexivity|]. vm_compute. reflexivity.
Qed.
Print Assumptions C74_large_factor_refuted.
(** A column with PLACEHOLDER in its name is missing from the frame. *)
Theorem C73_placeholder_dropped_refuted : exists m c c', says_table m [Column c; Column c'] /\ c_name c' = $"X_PLACEHOLDER" /\
  read_ex_table m (bytes_ [200; 7]%nat) = Ok [mkFC (c_name c) (CT (DInt false 1)) [VNum (EI 200)]].
Proof.
  exists [($"ROWS", PInt 1); ($"ROW_BYTES", PInt 2); typed_column $"A" 1 1 $"UNSIGNED_INTEGER" []; typed_column $"X_PLACEHOLDER" 2 1 $"UNSIGNED_INTEGER" []],
    (mkCol $"A" 1 1 None (Some $"UNSIGNED_INTEGER") None None), (mkCol $"X_PLACEHOLDER" 2 1 None (Some $"UNSIGNED_INTEGER") None None).
  split; [split; [|reflexivity]; do 2 (apply other_item; [not_in|not_ptr|]); do 2 (apply part_item; [cbn; tauto|a_column|]); constructor|].
  split; [reflexivity|]. vm_compute. reflexivity.
Qed.
Print Assumptions C73_placeholder_dropped_refuted.
(** A column of several 4-byte IBM reals: they are converted as if they were of 8 bytes.
    1.0 becomes 2^-196 or so. *)
Theorem C73_ibm_items_refuted : exists m c, says_table m [Column c] /\ c_items c = Some (2, 4, None) /\
  table_cells 0 [Column c] = [(0, 4); (4, 4)] /\
  let word := [65; 16; 0; 0]%nat in
  big_word 4 (ibm_word 24 0 65 (2 ^ 20)) (bytes_ word) /\ (ibm_number 24 0 65 (2 ^ 20) == 1)%Q /\
  exists q, read_ex_table m (bytes_ (word ++ word)) = Ok [mkFC $"A_0" (CT DF64) [VNum (EF (Fin q))]; mkFC $"A_1" (CT DF64) [VNum (EF (Fin q))]] /\ (0 < q < 1 # (2 ^ 200))%Q.
Proof.
  exists [($"ROWS", PInt 1); ($"ROW_BYTES", PInt 8); typed_column $"A" 1 8 $"IBM_REAL" [($"ITEMS", PInt 2); ($"ITEM_BYTES", PInt 4)]],
    (mkCol $"A" 1 8 (Some (2, 4, None)) (Some $"IBM_REAL") None None).
  split; [split; [|reflexivity]; do 2 (apply other_item; [not_in|not_ptr|]); apply part_item; [cbn; tauto|a_column|constructor]|].
  split; [reflexivity|]. split; [reflexivity|]. cbv zeta. split; [|split; [vm_compute; reflexivity|]].
  - split; [reflexivity|]. intros i Hi. destruct i as [|[|[|[|i]]]]; try (vm_compute; reflexivity). cbn in Hi. lia.
  - eexists. split; [vm_compute; reflexivity|]. split; vm_compute; reflexivity.
Qed.
Print Assumptions C73_ibm_items_refuted.
(** Names that numbering makes equal: the table is not read. *)
Theorem C73_name_clash_refuted : exists m c1 c2 c3, says_table m [Column c1; Column c2; Column c3] /\
  [c_name c1; c_name c2; c_name c3] = [$"A"; $"A"; $"A_0"] /\ read_ex_table m (bytes_ [1; 2; 3]%nat) = Err ValueError.
Proof.
  exists [($"ROWS", PInt 1); ($"ROW_BYTES", PInt 3); typed_column $"A" 1 1 $"UNSIGNED_INTEGER" []; typed_column $"A" 2 1 $"UNSIGNED_INTEGER" []; typed_column $"A_0" 3 1 $"UNSIGNED_INTEGER" []],
    (mkCol $"A" 1 1 None (Some $"UNSIGNED_INTEGER") None None), (mkCol $"A" 2 1 None (Some $"UNSIGNED_INTEGER") None None), (mkCol $"A_0" 3 1 None (Some $"UNSIGNED_INTEGER") None None).
  split; [split; [|reflexivity]; do 2 (apply other_item; [not_in|not_ptr|]); do 3 (apply part_item; [cbn; tauto|a_column|]); constructor|].
  split; [reflexivity|]. vm_compute. reflexivity.
Qed.
Print Assumptions C73_name_clash_refuted.
