(** C81: the bins of HISTOGRAM objects. *)
From Coq Require Import QArith Qabs Lia ZArith.
From Verif.Base Require Import Py PyFacts Val Numpy Float.
From Verif.Model Require Import Files Types Scaling Pds4Types Pds4Values Ibm Table Array Pds4Frame TableValues Histogram.
From Verif.Spec Require Import Types Ibm Pds4Values Array Table TableValues Histogram.
From Verif.Spec Require Scaling Image.
From Verif.Proofs Require Import Pds4Frame Array Table TableLabel TableValues.
From Verif.Properties Require Pds4Fields.
From Verif.Properties Require Import Table TableValues.
From Verif.Spec Require Import Table TableValues Histogram.
From Verif.Proofs Require Import Table TableValues.
Open Scope Z_scope.

(** ** The rows of the format definition *)
Lemma count_same (nm : str) n : count_name (repeat nm n) nm = n.
Proof. induction n as [|n IH]; [reflexivity|]. unfold count_name in *. cbn [repeat filter]. rewrite str_eqb_refl. cbn [length]. now rewrite IH. Qed.
Lemma rename_same (nm s : str) all : nm <> $"RESERVED" -> count_name (map fst all) nm <> 1%nat -> forall n k,
  rename_from all (repeat nm k) (repeat (nm, s) n) = map (fun i => numbered nm i) (seq k n).
Proof.
  intros Hr Hc n. induction n as [|n IH]; intros k; [reflexivity|]. cbn [repeat rename_from seq map].
  assert (X : (count_name (map fst all) nm =? 1)%nat = false) by now apply Nat.eqb_neq. rewrite X. f_equal.
  - unfold group_base. assert (Y : str_eqb nm $"RESERVED" = false) by now apply str_eqb_neq. rewrite Y, count_same. reflexivity.
  - exact (IH (S k)).
Qed.
Lemma reindex_same (nm s : str) n : nm <> $"RESERVED" -> reindex_names (repeat (nm, s) n) = map (fun i => if Nat.eqb n 1 then nm else numbered nm i) (seq 0 n).
Proof.
  intros Hr. assert (M : map fst (repeat (nm, s) n) = repeat nm n) by (induction n as [|n IH]; [reflexivity|cbn; now rewrite IH]).
  unfold reindex_names. destruct (Nat.eqb_spec n 1) as [->|H].
  - cbn [repeat rename_from seq map fst]. change [nm] with (repeat nm 1). rewrite count_same. reflexivity.
  - apply (rename_same nm s _ Hr) with (k := 0%nat). now rewrite M, count_same.
Qed.
Lemma repeat_map {A} (x : A) n k : repeat x n = map (fun _ => x) (seq k n).
Proof. revert k. induction n as [|n IH]; intros k; [reflexivity|]. cbn [repeat seq map]. now rewrite <- IH. Qed.
Lemma map_repeat_ {A B} (f : A -> B) x n : map f (repeat x n) = repeat (f x) n.
Proof. induction n as [|n IH]; [reflexivity|]. cbn [repeat map]. now rewrite IH. Qed.
Lemma repeats {A} (x : A) (n : nat) : (0 < n)%nat -> append_repeated_object (RObj x) [] (Z.of_nat n) = repeat x n.
Proof.
  intros H. unfold append_repeated_object. destruct (Z.ltb_spec 1 (Z.of_nat n)).
  - rewrite Nat2Z.id. cbn [app]. now rewrite (repeat_map x n 0).
  - assert (n = 1)%nat as -> by lia. reflexivity.
Qed.

Definition row (h : histogram) (b : Z) (i : nat) : frow :=
  mkRow (bin_name h i) None 0 b (Some (Z.of_nat (h_items h))) (Some (Z.of_nat (h_width h))) None 1 None (Some (PStr (h_type h))) (h_scale h) (h_shift h).
Lemma rows_ok m object h : says_histogram m object h -> (0 < h_items h)%nat -> h_name h <> $"RESERVED" ->
  exists b, histogram_rows m object = Ok (map (row h b) (seq 0 (h_items h))).
Proof.
  intros (Hn & Ht & Hi & Hw & Hb & Hsc & Hsh & Hst & _ & Ha & _) Hp Hr. unfold histogram_rows, histogram_fields.
  assert (X : match md_get m $"INTERCHANGE_FORMAT" with Some (PStr s) => str_eqb s $"ASCII" | _ => false end = false).
  { destruct (md_get m $"INTERCHANGE_FORMAT") as [[]|]; try reflexivity. apply str_eqb_neq. congruence. }
  rewrite X, Hi, (repeats _ _ Hp). cbn [rbind].
  assert (Y : exists d, named_fields m object (repeat (to_dict m) (h_items h)) = Ok (reindexed (repeat d (h_items h))) /\ dict_get d $"NAME" = Some (PStr (h_name h)) /\
    forall k, k <> $"NAME" -> dict_get d k = md_get m k).
  { unfold named_fields. destruct Hn as [Hn|[Hn Ho]]; rewrite Hn.
    - assert (E : str_eqb (h_name h) $"RESERVED" = false) by now apply str_eqb_neq. rewrite E. cbn [andb]. eexists. split; [reflexivity|]. split; [now rewrite to_dict_get|]. intros k _. apply to_dict_get.
    - rewrite map_repeat_. eexists. split; [reflexivity|]. split; [rewrite dget_set, str_eqb_refl; now rewrite Ho|].
      intros k Hk. rewrite dget_set, to_dict_get. assert (E : str_eqb $"NAME" k = false) by (apply str_eqb_neq; congruence). now rewrite E. }
  destruct Y as (d & -> & Dn & Dk). cbn [rbind]. unfold need. rewrite Ht. cbn [rbind].
  assert (E : reindexed (repeat d (h_items h)) = map (fun i => dict_set d $"NAME" (PStr (bin_name h i))) (seq 0 (h_items h))).
  { unfold reindexed. rewrite map_repeat_. unfold name_of at 1. rewrite Dn, (reindex_same _ _ _ Hr). rewrite (repeat_map d _ 0), combine_map, map_map. reflexivity. }
  rewrite E. set (b := match md_get m $"BYTES" with Some (PInt b) => b | _ => Z.of_nat (h_items h) * Z.of_nat (h_width h) end). exists b.
  assert (ER : rmap histogram_row (map (fun i => dict_set d $"NAME" (PStr (bin_name h i))) (seq 0 (h_items h))) = Ok (map (row h b) (seq 0 (h_items h)))).
  { clear - Hsc Hsh Ht Hi Hw Hb Dk. generalize (seq 0 (h_items h)) as l. intros l. induction l as [|i l IH]; [reflexivity|]. cbn [map rmap]. rewrite IH.
    unfold histogram_row, opt_int. rewrite !dget_set. cbn [str_eqb]. change (str_eqb $"NAME" $"NAME") with true. cbn iota.
    change (str_eqb $"NAME" $"BYTES") with false. change (str_eqb $"NAME" $"ITEMS") with false. change (str_eqb $"NAME" $"ITEM_BYTES") with false.
    change (str_eqb $"NAME" $"DATA_TYPE") with false. change (str_eqb $"NAME" $"SCALING_FACTOR") with false. change (str_eqb $"NAME" $"OFFSET") with false. cbn iota.
    rewrite !Dk by discriminate. rewrite Ht, Hi, Hw, Hsc, Hsh. subst b. unfold row. destruct Hb as [-> |(b & ->)]; reflexivity. }
  rewrite ER. cbn [rbind]. unfold md_has. rewrite md_get_dict in Hst. unfold dict_get in Hst.
  assert (Z : existsb (fun kv => str_eqb (fst kv) $"START_BYTE") m = false).
  { clear - Hst. induction m as [|[k v] m IH]; [reflexivity|]. cbn in *. destruct (str_eqb k _); [discriminate|]. now apply IH. }
  rewrite Z. reflexivity.
Qed.
Lemma packed_same h b t : forall n k off, packed off (map (fun i => (row h b i, t)) (seq k n)) =
  map (fun i => mkO (row h b i) (off + (Z.of_nat i - Z.of_nat k) * Z.of_nat (t_size t)) 1) (seq k n).
Proof.
  induction n as [|n IH]; intros k off; [reflexivity|]. cbn [seq map packed]. rewrite IH. replace (off + (Z.of_nat k - Z.of_nat k) * Z.of_nat (t_size t)) with off by lia. f_equal. apply map_ext_in. intros i Hi. apply in_seq in Hi. f_equal. nia.
Qed.
Lemma bin_names h : NoDup (map (bin_name h) (seq 0 (h_items h))).
Proof.
  unfold bin_name. destruct (Nat.eqb_spec (h_items h) 1) as [E|E].
  - rewrite E. cbn. constructor; [tauto|constructor].
  - apply FinFun.Injective_map_NoDup; [|apply seq_NoDup]. intros a b X. unfold numbered in X. apply app_inv_head in X. cbn in X. injection X as X. now apply str_of_nat_inj.
Qed.
Lemma amount_repeat v n x a : (0 < n)%nat -> amount (repeat v n) x a <-> amount [v] x a.
Proof.
  intros H. assert (F : Forall is_int (repeat v n) <-> Forall is_int [v]).
  { split; intros X.
    - constructor; [|constructor]. destruct n; [lia|]. now inversion X.
    - inversion X; subst. clear H. induction n; constructor; auto. }
  split; intros X; inversion X; subst; try (constructor; assumption); try (apply a_int; tauto); apply a_int_real; tauto.
Qed.
Lemma usable_repeat v n : (0 < n)%nat -> usable_factors [v] -> usable_factors (repeat v n).
Proof.
  intros H [A B]. split.
  - apply Forall_forall. intros x X. apply repeat_spec in X. subst. now inversion A.
  - intros z X. apply repeat_spec in X. apply B. now left.
Qed.

(** ** Reading *)
Section Foreign.
Variable from_vax32 : N -> num.
Variable cp500 : ascii -> ascii.
Definition typed (h : histogram) (k : kind) : tmeaning := t_kind_of k (h_width h).
Definition laid (h : histogram) (b : Z) (i : nat) : orow := mkO (row h b i) (Z.of_nat i * Z.of_nat (h_width h)) 1.
Definition bins_of (h : histogram) (b : Z) : list orow := map (laid h b) (seq 0 (h_items h)).
Lemma fold_max_packed w : 0 <= w -> forall n k acc, acc = Z.of_nat k * w ->
  fold_left Z.max (map (fun i => Z.of_nat i * w + w) (seq k n)) acc = Z.of_nat (k + n) * w.
Proof.
  intros Hw n. induction n as [|n IH]; intros k acc ->; cbn [seq map fold_left]; [f_equal; lia|]. rewrite (IH (S k)); [f_equal; lia|]. nia.
Qed.
Lemma start_read mem file m object h k start : says_histogram m object h -> (0 < h_items h)%nat ->
  of_kind (h_type h) (h_width h) k -> ~ mentions $"ASCII" (h_type h) -> h_name h <> $"RESERVED" ->
  exists b, read_histogram from_vax32 cp500 mem file m object start =
    do n <- rows_in mem file start 1 (h_items h * h_width h);
    do table <- rmap (fun i => do c <- convert_column from_vax32 cp500 (h_type h) b (typed h k)
                                       (map (fun j => firstn (h_width h) (skipn (start + j * (h_items h * h_width h) + i * h_width h) file)) (seq 0 n));
                               Ok (mkFC (bin_name h i) (fst c) (snd c))) (seq 0 (h_items h));
    rmap (scale_column (bins_of h b) None) (drop_placeholders table).
Proof.
  intros S_ Hp K Na Hr. destruct (rows_ok m object h S_ Hp Hr) as (b & E). exists b. unfold read_histogram. rewrite E. cbn [rbind].
  destruct S_ as (_ & _ & _ & _ & _ & _ & _ & _ & Hro & Ha & Ho1 & Ho2).
  assert (PA : probably_ascii m (map (fun r => mkO r 0 1) (map (row h b) (seq 0 (h_items h)))) object = false).
  { unfold probably_ascii, looks_like_ascii. rewrite (not_mentioned _ _ Ho1), (not_mentioned _ _ Ho2). cbn [orb]. rewrite orb_false_iff. split.
    - apply not_true_iff_false. intros X. apply existsb_exists in X as (o & Hin & X). apply in_map_iff in Hin as (r & <- & Hin). apply in_map_iff in Hin as (i & <- & _).
      cbn [o_row row r_type] in X. rewrite (not_mentioned _ _ Na) in X. discriminate X.
    - destruct (md_get m $"INTERCHANGE_FORMAT") as [[]|]; try reflexivity. apply str_eqb_neq. congruence. }
  rewrite PA.
  assert (CT_ : forall i, cell_type (row h b i) = Ok (typed h k)).
  { intros i. unfold cell_type, type_name, cell_width. cbn [row r_type r_item_bytes rbind]. rewrite Nat2Z.id. destruct (kind_type _ _ _ K) as (s & -> & M). cbn [rbind]. unfold np_dtype. now rewrite M. }
  assert (ET : rmap cell_type (map (row h b) (seq 0 (h_items h))) = Ok (map (fun _ => typed h k) (seq 0 (h_items h)))).
  { generalize (seq 0 (h_items h)). intros l. induction l as [|i l IH]; [reflexivity|]. cbn [map rmap]. rewrite CT_, IH. reflexivity. }
  rewrite ET. cbn [rbind]. cbv zeta. rewrite combine_map.
  assert (SZ : t_size (typed h k) = h_width h) by apply kind_size.
  assert (PK : packed 0 (map (fun i => (row h b i, typed h k)) (seq 0 (h_items h))) = bins_of h b).
  { rewrite packed_same. apply map_ext. intros i. unfold laid. rewrite SZ. f_equal. lia. }
  rewrite PK. unfold interpret_as_binary.
  assert (ET' : rmap (fun o => cell_type (o_row o)) (bins_of h b) = Ok (map (fun _ => typed h k) (seq 0 (h_items h)))).
  { rewrite <- ET. unfold bins_of. generalize (seq 0 (h_items h)). intros l. induction l as [|i l IH]; [reflexivity|]. cbn [map rmap laid o_row]. now rewrite IH. }
  rewrite ET'. cbn [rbind].
  assert (ED : has_dup (map (fun o => r_name (o_row o)) (bins_of h b) ++ []) = false).
  { apply has_dup_iff. rewrite app_nil_r. unfold bins_of. rewrite map_map. cbn [laid o_row row r_name]. apply bin_names. }
  rewrite ED. unfold rows_count. rewrite Hro. cbn [rbind]. cbv zeta.
  assert (EC : combine (bins_of h b) (map (fun _ => typed h k) (seq 0 (h_items h))) = map (fun i => (laid h b i, typed h k)) (seq 0 (h_items h))) by apply combine_map.
  rewrite EC.
  assert (EW : row_size (map (fun i => (laid h b i, typed h k)) (seq 0 (h_items h))) None = Z.of_nat (h_items h * h_width h)).
  { unfold row_size. rewrite app_nil_r, map_map. cbn [laid o_off fst snd]. rewrite SZ, (fold_max_packed (Z.of_nat (h_width h)) ltac:(lia) (h_items h) 0%nat 0 eq_refl). lia. }
  rewrite EW, Nat2Z.id. destruct (rows_in mem file start 1 (h_items h * h_width h)) as [n|e]; [|reflexivity]. cbn [rbind].
  match goal with |- rbind ?A _ = rbind ?B _ => replace A with B; [reflexivity|] end.
  clear - SZ. generalize (seq 0 (h_items h)) as l. intros l. induction l as [|i l IH]; [reflexivity|]. cbn [map rmap]. rewrite <- IH. cbn [fst snd laid o_row o_off row r_name r_bytes r_type type_name rbind].
  f_equal. f_equal. f_equal. unfold field_bytes. apply map_ext. intros j. unfold cell_bytes. cbn [fst snd laid o_off]. rewrite SZ, Nat2Z.id. f_equal. f_equal. lia.
Qed.
Lemma bin_plain h i : ~ mentions $"PLACEHOLDER" (h_name h) -> contains $"PLACEHOLDER" (bin_name h i) = false.
Proof.
  intros H. apply not_mentioned. intros M. apply H. unfold bin_name in M. destruct (Nat.eqb _ _); [exact M|]. eapply (numbered_mentions $"PLACEHOLDER"); [|exact M|discriminate].
  repeat constructor; discriminate.
Qed.
Lemma drop_none (l : list framecol) : Forall (fun c => contains $"PLACEHOLDER" (k_name c) = false) l -> drop_placeholders l = l.
Proof. intros H. apply filter_all. eapply Forall_impl; [|exact H]. intros c E. cbv beta in *. now rewrite E. Qed.
Lemma bins_scaled h b o f raw : (0 < h_items h)%nat -> of_kind (h_type h) (h_width h) (Number o f) ->
  usable_factors [h_scale h] -> usable_factors [h_shift h] ->
  (forall a b, amount [h_scale h] (h_scale h) a -> amount [h_shift h] (h_shift h) b ->
    let d := number_type f (h_width h) in fits d a /\ fits (match a with Some c => result_type d c | None => d end) b) ->
  Forall2 (fun i col => k_name col = bin_name h i /\ k_type col = CT (number_type f (h_width h)) /\ all_nums (k_values col)) (seq 0 (h_items h)) raw ->
  exists frame, rmap (scale_column (bins_of h b) None) raw = Ok frame /\
    Forall2 (fun col col' => k_name col' = k_name col /\ exists a b d mid d', amount [h_scale h] (h_scale h) a /\ amount [h_shift h] (h_shift h) b /\
      operated OMul a (number_type f (h_width h), k_values col) (d, mid) /\ operated OAdd b (d, mid) (d', k_values col') /\ k_type col' = CT d') raw frame.
Proof.
  intros Hp K U1 U2 Hf F. apply rmap_all. intros col Hcol. apply In_nth_error in Hcol as [i Hi].
  assert (Hlen := Forall2_length F). rewrite seq_length in Hlen.
  assert (Li : (i < length raw)%nat) by (apply nth_error_Some; congruence).
  assert (Hs : nth_error (seq 0 (h_items h)) i = Some i) by (rewrite (nth_error_nth' _ 0%nat) by (rewrite seq_length; lia); now rewrite seq_nth by lia).
  destruct (F2_index _ _ _ _ _ F Hs) as (col' & Hi' & N & T & A). rewrite Hi in Hi'. injection Hi' as <-.
  unfold scale_column. rewrite N.
  assert (ND : NoDup (map (fun o => r_name (o_row o)) (bins_of h b))).
  { unfold bins_of. rewrite map_map. cbn [laid o_row row r_name]. apply bin_names. }
  assert (Hin : In (laid h b i) (bins_of h b)) by (unfold bins_of; apply in_map; eapply nth_error_In, Hs).
  pose proof (find_named (fun o => r_name (o_row o)) (bins_of h b) (laid h b i) ND Hin) as FN. cbn [laid o_row row r_name] in FN. rewrite FN.
  assert (KS : map (fun o => r_scale (o_row o)) (bins_of h b) ++ [] = repeat (h_scale h) (h_items h)).
  { unfold bins_of. rewrite app_nil_r, map_map. cbn [laid o_row row r_scale]. now rewrite <- repeat_map. }
  assert (KO : map (fun o => r_shift (o_row o)) (bins_of h b) ++ [] = repeat (h_shift h) (h_items h)).
  { unfold bins_of. rewrite app_nil_r, map_map. cbn [laid o_row row r_shift]. now rewrite <- repeat_map. }
  rewrite KS, KO. cbn [row o_row r_scale r_shift laid].
  assert (IR : forall v n, (0 < n)%nat -> In v (@repeat (option pv) v n)) by (intros v n Hn; destruct n; [lia|now left]).
  destruct (amount_ok (repeat (h_scale h) (h_items h)) (h_scale h) (IR _ _ Hp) (usable_repeat _ _ Hp U1)) as (a & Aa & Ga). apply (amount_repeat _ _ _ _ Hp) in Aa.
  destruct (amount_ok (repeat (h_shift h) (h_items h)) (h_shift h) (IR _ _ Hp) (usable_repeat _ _ Hp U2)) as (c & Ac & Gc). apply (amount_repeat _ _ _ _ Hp) in Ac.
  destruct (Hf a c Aa Ac) as [F1 F2]. cbv zeta in F1, F2.
  assert (PT : Scaling.proper_type (number_type f (h_width h))).
  { inversion K as [o' f' T' _ _ _ Eo| | | | | | |]; subst. apply pds3_width in T'. destruct f as [s| |]; cbn [number_type]; [now apply width_int| |]; destruct (h_width h =? 4)%nat; exact I. }
  destruct col as [cn ct cv]. cbn [k_name k_values k_type] in *. subst cn ct.
  destruct (apply_ok OMul _ a (bin_name h i) _ cv Ga PT F1 A) as (mid & Em & Om & Nm & Pm). cbv zeta in Em, Om, Pm. rewrite Em. cbn [rbind].
  destruct (apply_ok OAdd _ c (bin_name h i) _ mid Gc Pm F2 Nm) as (fin & Ef & Of & _ & _). cbv zeta in Ef, Of. rewrite Ef. eexists. split; [reflexivity|]. split; [reflexivity|].
  exists a, c. eexists _, _, _. repeat (split; [eassumption|]). reflexivity.
Qed.
End Foreign.

(** A histogram of [n] items of [w] bytes, read where its data start: a frame of [n]
    columns of one value each, the [i]-th of which is named after the histogram and [i], and
    has the number in the [i]-th [w] bytes, times the label's factor and plus its offset. *)
Theorem C81_bins : forall from_vax32 cp500 mem pre data post m object h o f,
  says_histogram m object h -> (0 < h_items h)%nat ->
  of_kind (h_type h) (h_width h) (Number o f) -> ~ mentions $"ASCII" (h_type h) ->
  h_name h <> $"RESERVED" -> ~ mentions $"PLACEHOLDER" (h_name h) ->
  usable_factors [h_scale h] -> usable_factors [h_shift h] ->
  (forall a b, amount [h_scale h] (h_scale h) a -> amount [h_shift h] (h_shift h) b ->
    let d := number_type f (h_width h) in fits d a /\ fits (match a with Some c => result_type d c | None => d end) b) ->
  length data = (h_items h * h_width h)%nat ->
  exists frame, read_histogram from_vax32 cp500 mem (pre ++ data ++ post) m object (length pre) = Ok frame /\
    length frame = h_items h /\
    forall i, (i < h_items h)%nat -> exists col raw, nth_error frame i = Some col /\ k_name col = bin_name h i /\
      pixel_holds o f (h_width h) (Image.item data 0 (h_width h) i) (PElt raw) /\
      exists a b d mid d', amount [h_scale h] (h_scale h) a /\ amount [h_shift h] (h_shift h) b /\
        operated OMul a (number_type f (h_width h), [VNum raw]) (d, mid) /\ operated OAdd b (d, mid) (d', k_values col) /\ k_type col = CT d'.
Proof.
  intros from_vax32 cp500 mem pre data post m object h o f S_ Hp K Na Hr Hpl U1 U2 Hf L.
  assert (Wp := kind_pos _ _ _ K).
  destruct (start_read from_vax32 cp500 mem (pre ++ data ++ post) m object h (Number o f) (length pre) S_ Hp K Na Hr) as (b & E). rewrite E.
  assert (ER : rows_in mem (pre ++ data ++ post) (length pre) 1 (h_items h * h_width h) = Ok 1%nat).
  { pose proof (rows_in_ok mem pre [data] post 1 (h_items h * h_width h)) as X. cbn [concat length] in X. rewrite app_nil_r in X. apply X; [now repeat constructor|nia|now left]. }
  rewrite ER. cbn [rbind seq map].
  destruct (rmap_all (fun i col => k_name col = bin_name h i /\ k_type col = CT (number_type f (h_width h)) /\
      exists x, k_values col = [VNum x] /\ pixel_holds o f (h_width h) (Image.item data 0 (h_width h) i) (PElt x))
    (fun i => do c <- convert_column from_vax32 cp500 (h_type h) b (typed h (Number o f)) [firstn (h_width h) (skipn (length pre + 0 * (h_items h * h_width h) + i * h_width h) (pre ++ data ++ post))];
              Ok (mkFC (bin_name h i) (fst c) (snd c))) (seq 0 (h_items h))) as (raw & Er & Fr).
  { intros i Hi. apply in_seq in Hi.
    assert (EI : firstn (h_width h) (skipn (length pre + 0 * (h_items h * h_width h) + i * h_width h) (pre ++ data ++ post)) = Image.item data 0 (h_width h) i).
    { unfold Image.item. rewrite Nat.mul_0_l, Nat.add_0_r, skipn_app.
      rewrite (skipn_all2 pre) by lia. replace (length pre + i * h_width h - length pre)%nat with (i * h_width h)%nat by lia.
      cbn [app]. rewrite skipn_app, firstn_app. rewrite skipn_length, L. replace (h_width h - (h_items h * h_width h - i * h_width h))%nat with 0%nat by nia. cbn [firstn]. rewrite app_nil_r. reflexivity. }
    rewrite EI.
    assert (LI : length (Image.item data 0 (h_width h) i) = h_width h).
    { unfold Image.item. rewrite firstn_length, skipn_length, L. nia. }
    destruct (convert_ok from_vax32 cp500 (h_type h) (h_width h) (Number o f) b [Image.item data 0 (h_width h) i] K) as (ct & vs & Ec & Fc & Tc).
    { intros [X|X]; discriminate X. }
    { discriminate. }
    { now repeat constructor. }
    unfold typed. rewrite Ec. cbn [rbind fst snd]. eexists. split; [reflexivity|]. cbn [k_name k_type k_values]. split; [reflexivity|]. split; [now rewrite Tc|].
    inversion Fc as [|? v ? l (x & -> & P) Fl]; subst. inversion Fl; subst. eauto. }
  rewrite Er. cbn [rbind].
  assert (DR : drop_placeholders raw = raw).
  { apply drop_none. apply Forall_forall. intros col Hc. apply In_nth_error in Hc as [i Hi].
    assert (Li : (i < length raw)%nat) by (apply nth_error_Some; congruence). rewrite <- (Forall2_length Fr), seq_length in Li.
    assert (Hs : nth_error (seq 0 (h_items h)) i = Some i) by (rewrite (nth_error_nth' _ 0%nat) by (rewrite seq_length; lia); now rewrite seq_nth by lia).
    destruct (F2_index _ _ _ _ _ Fr Hs) as (col' & Hi' & N & _). rewrite Hi in Hi'. injection Hi' as <-. rewrite N. now apply bin_plain. }
  rewrite DR. destruct (bins_scaled h b o f raw Hp K U1 U2 Hf) as (frame & Ef & Ff).
  { eapply Pds4Fields.F2_imp; [|exact Fr]. intros i col (A1 & A2 & x & A3 & _). split; [exact A1|]. split; [exact A2|]. rewrite A3. repeat constructor. now eexists. }
  exists frame. split; [exact Ef|]. split; [now rewrite <- (Forall2_length Ff), <- (Forall2_length Fr), seq_length|].
  intros i Li.
  assert (Hs : nth_error (seq 0 (h_items h)) i = Some i) by (rewrite (nth_error_nth' _ 0%nat) by (rewrite seq_length; lia); now rewrite seq_nth by lia).
  destruct (F2_index _ _ _ _ _ Fr Hs) as (col & Hi & N & _ & x & V & P). destruct (F2_index _ _ _ _ _ Ff Hi) as (col' & Hi' & N' & Q).
  exists col', x. split; [exact Hi'|]. split; [congruence|]. split; [exact P|]. now rewrite V in Q.
Qed.
Print Assumptions C81_bins.
Lemma nth_error_ext_ {A} (l l' : list A) : (forall i, nth_error l i = nth_error l' i) -> l = l'.
Proof.
  revert l'. induction l as [|x l IH]; intros [|y l'] H; [reflexivity|discriminate (H 0%nat)|discriminate (H 0%nat)|].
  pose proof (H 0%nat) as H0. injection H0 as ->. f_equal. apply IH. intros i. exact (H (S i)).
Qed.
(** Without a factor or an offset: the numbers themselves, in their type. *)
Theorem C81_counts : forall from_vax32 cp500 mem pre data post m object h o f,
  says_histogram m object h -> (0 < h_items h)%nat -> h_scale h = None -> h_shift h = None ->
  of_kind (h_type h) (h_width h) (Number o f) -> ~ mentions $"ASCII" (h_type h) ->
  h_name h <> $"RESERVED" -> ~ mentions $"PLACEHOLDER" (h_name h) ->
  length data = (h_items h * h_width h)%nat ->
  exists counts, read_histogram from_vax32 cp500 mem (pre ++ data ++ post) m object (length pre) =
      Ok (map (fun ix => mkFC (bin_name h (fst ix)) (CT (number_type f (h_width h))) [VNum (snd ix)]) (combine (seq 0 (h_items h)) counts)) /\
    length counts = h_items h /\
    forall i x, nth_error counts i = Some x -> pixel_holds o f (h_width h) (Image.item data 0 (h_width h) i) (PElt x).
Proof.
  intros from_vax32 cp500 mem pre data post m object h o f S_ Hp E1 E2 K Na Hr Hpl L.
  assert (NA : forall all a, amount all None a -> a = None) by (intros all a H; now inversion H).
  assert (U : usable_factors [None]) by (split; [repeat constructor|intros z [X|[]]; discriminate X]).
  destruct (C81_bins from_vax32 cp500 mem pre data post m object h o f S_ Hp K Na Hr Hpl) as (frame & E & Lf & H); [now rewrite E1|now rewrite E2| |exact L|].
  { rewrite E1, E2. intros a b A B. apply NA in A, B. subst. cbv zeta. unfold fits. destruct (number_type f (h_width h)); auto. }
  assert (G : forall i col, nth_error frame i = Some col -> exists x, col = mkFC (bin_name h i) (CT (number_type f (h_width h))) [VNum x] /\ pixel_holds o f (h_width h) (Image.item data 0 (h_width h) i) (PElt x)).
  { intros i col Hi. assert (Li : (i < h_items h)%nat) by (rewrite <- Lf; apply nth_error_Some; congruence).
    destruct (H i Li) as (col' & x & Hi' & N & P & a & b & d & mid & d' & A & B & O1 & O2 & T). rewrite Hi in Hi'. injection Hi' as <-. exists x. split; [|exact P].
    rewrite E1 in A. rewrite E2 in B. apply NA in A, B. subst a b. cbn [operated] in O1, O2. injection O1 as -> ->. injection O2 as -> V. destruct col as [n t v]. cbn in *. now subst. }
  rewrite E. clear E H. exists (map (fun col => match k_values col with [VNum x] => x | _ => EI 0 end) frame). split; [|split].
  - f_equal. apply nth_error_ext_. intros i. rewrite nth_error_map. destruct (nth_error frame i) as [col|] eqn:Hi.
    + assert (Li : (i < h_items h)%nat) by (rewrite <- Lf; apply nth_error_Some; congruence). destruct (G i col Hi) as (x & -> & _).
      assert (Hs : nth_error (seq 0 (h_items h)) i = Some i) by (rewrite (nth_error_nth' _ 0%nat) by (rewrite seq_length; lia); now rewrite seq_nth by lia).
      rewrite (Pds4Frame.nth_error_combine _ _ _ _ _ Hs (map_nth_error _ _ _ Hi)). reflexivity.
    + apply nth_error_None in Hi. replace (nth_error (combine _ _) i) with (@None (nat * elt)); [reflexivity|]. symmetry. apply nth_error_None. rewrite combine_length, map_length, seq_length. lia.
  - now rewrite map_length.
  - intros i x Hi. rewrite nth_error_map in Hi. destruct (nth_error frame i) as [col|] eqn:Hc; [|discriminate]. destruct (G i col Hc) as (y & -> & P). cbn in Hi. now injection Hi as <-.
Qed.
Print Assumptions C81_counts.
(** A file that ends before the histogram does: a frame with the columns and no values;
    from a compressed file, an error. *)
Theorem C81_short_file : forall from_vax32 cp500 pre rest m object h o f,
  says_histogram m object h -> (0 < h_items h)%nat ->
  of_kind (h_type h) (h_width h) (Number o f) -> ~ mentions $"ASCII" (h_type h) ->
  h_name h <> $"RESERVED" -> ~ mentions $"PLACEHOLDER" (h_name h) ->
  usable_factors [h_scale h] -> usable_factors [h_shift h] ->
  (forall a b, amount [h_scale h] (h_scale h) a -> amount [h_shift h] (h_shift h) b ->
    let d := number_type f (h_width h) in fits d a /\ fits (match a with Some c => result_type d c | None => d end) b) ->
  (length rest < h_items h * h_width h)%nat ->
  (exists frame, read_histogram from_vax32 cp500 false (pre ++ rest) m object (length pre) = Ok frame /\
    map k_name frame = map (bin_name h) (seq 0 (h_items h)) /\ Forall (fun col => k_values col = []) frame) /\
  (rest <> [] -> read_histogram from_vax32 cp500 true (pre ++ rest) m object (length pre) = Err ValueError).
Proof.
  intros from_vax32 cp500 pre rest m object h o f S_ Hp K Na Hr Hpl U1 U2 Hf L.
  assert (Wp := kind_pos _ _ _ K). assert (W : (0 < h_items h * h_width h)%nat) by nia.
  assert (W0 : (h_items h * h_width h =? 0)%nat = false) by (apply Nat.eqb_neq; lia). split.
  - destruct (start_read from_vax32 cp500 false (pre ++ rest) m object h (Number o f) (length pre) S_ Hp K Na Hr) as (b & E). rewrite E. clear E.
    assert (ER : rows_in false (pre ++ rest) (length pre) 1 (h_items h * h_width h) = Ok 0%nat).
    { unfold rows_in. rewrite W0, skipn_app, skipn_all, Nat.sub_diag. cbn [app skipn]. now rewrite Nat.div_small. }
    rewrite ER. cbn [rbind seq map].
    destruct (rmap_all (fun i col => k_name col = bin_name h i /\ k_type col = CT (number_type f (h_width h)) /\ k_values col = [])
      (fun i => do c <- convert_column from_vax32 cp500 (h_type h) b (typed h (Number o f)) []; Ok (mkFC (bin_name h i) (fst c) (snd c))) (seq 0 (h_items h))) as (raw & Er & Fr).
    { intros i Hi. destruct (convert_ok from_vax32 cp500 (h_type h) (h_width h) (Number o f) b [] K) as (ct & vs & Ec & Fc & Tc); [intros [X|X]; discriminate X|discriminate|constructor|].
      unfold typed. rewrite Ec. cbn [rbind fst snd]. eexists. split; [reflexivity|]. cbn [k_name k_type k_values]. split; [reflexivity|]. split; [now rewrite Tc|]. now inversion Fc. }
    rewrite Er. cbn [rbind].
    assert (NM : map k_name raw = map (bin_name h) (seq 0 (h_items h))).
    { clear - Fr. induction Fr as [|i col l l' (N & _) _ IH]; [reflexivity|]. cbn [map]. now rewrite N, IH. }
    assert (DR : drop_placeholders raw = raw).
    { apply drop_none. apply Forall_forall. intros col Hc. apply (in_map k_name) in Hc. rewrite NM in Hc. apply in_map_iff in Hc as (i & <- & _). now apply bin_plain. }
    rewrite DR. destruct (bins_scaled h b o f raw Hp K U1 U2 Hf) as (frame & Ef & Ff).
    { eapply Pds4Fields.F2_imp; [|exact Fr]. intros i col (A1 & A2 & A3). split; [exact A1|]. split; [exact A2|]. rewrite A3. constructor. }
    exists frame. split; [exact Ef|]. rewrite <- NM. assert (EM : Forall (fun col => k_values col = []) raw) by (clear - Fr; induction Fr as [|? ? ? ? (_ & _ & X)]; constructor; auto).
    clear - Ff EM. induction Ff as [|col col' l l' (N & a & b & d & mid & d' & _ & _ & O1 & O2 & _) _ IH]; [split; constructor|].
    inversion EM as [|? ? V EM']; subst. destruct (IH EM') as [I1 I2]. cbn [map]. split; [now rewrite N, I1|]. constructor; [|exact I2]. rewrite V in O1.
    assert (M : mid = []). { destruct a as [c|]; cbn [operated fst snd] in O1; [destruct O1 as [_ X]; now inversion X|]. now injection O1. }
    subst mid. destruct b as [c|]; cbn [operated fst snd] in O2; [destruct O2 as [_ X]; now inversion X|]. now injection O2.
  - intros Ne. destruct (start_read from_vax32 cp500 true (pre ++ rest) m object h (Number o f) (length pre) S_ Hp K Na Hr) as (b & E). rewrite E. clear E.
    unfold rows_in. rewrite W0, skipn_app, skipn_all, Nat.sub_diag. cbn [app skipn]. cbv zeta. rewrite firstn_all2 by lia.
    rewrite Nat.mod_small by lia. destruct rest as [|c rest]; [contradiction|]. reflexivity.
Qed.
Print Assumptions C81_short_file.
(** Histograms of text are refused; and so is any label of one with a START_BYTE. *)
Theorem C81_text_refused : forall from_vax32 cp500 mem file m object start,
  md_get m $"INTERCHANGE_FORMAT" = Some (PStr $"ASCII") -> read_histogram from_vax32 cp500 mem file m object start = Err NotImplementedError_.
Proof. intros. unfold read_histogram, histogram_rows, histogram_fields. now rewrite H. Qed.
Print Assumptions C81_text_refused.
Theorem C81_start_byte_refused : forall from_vax32 cp500 mem file m object start v,
  In ($"START_BYTE", v) m -> exists e, read_histogram from_vax32 cp500 mem file m object start = Err e.
Proof.
  intros from_vax32 cp500 mem file m object start v Hv. unfold read_histogram, histogram_rows.
  destruct (histogram_fields m) as [fs|e]; [|now eexists]. cbn [rbind]. destruct (named_fields m object fs) as [fs'|e]; [|now eexists]. cbn [rbind].
  destruct (need m _) as [u|e]; [|now eexists]. cbn [rbind]. destruct (rmap histogram_row fs') as [rows|e]; [|now eexists]. cbn [rbind].
  assert (X : md_has m $"START_BYTE" = true) by (apply existsb_exists; exists ($"START_BYTE", v); split; [exact Hv|reflexivity]). rewrite X. now eexists.
Qed.
Print Assumptions C81_start_byte_refused.

(** ** An example *)
Definition ex_hist : multidict := [($"ITEMS", PInt 3); ($"DATA_TYPE", PStr $"LSB_UNSIGNED_INTEGER"); ($"ITEM_BYTES", PInt 2); ($"SCALING_FACTOR", PFloat (1 # 2))].
Definition ex_h : histogram := mkHist $"IMAGE_HISTOGRAM" $"LSB_UNSIGNED_INTEGER" 3 2 (Some (PFloat (1 # 2))) None.
Example C81_meets :
  says_histogram ex_hist $"IMAGE_HISTOGRAM" ex_h /\ of_kind (h_type ex_h) (h_width ex_h) (Number LSB (Integer false)) /\ ~ mentions $"ASCII" (h_type ex_h) /\
  h_name ex_h <> $"RESERVED" /\ ~ mentions $"PLACEHOLDER" (h_name ex_h) /\
  usable_factors [h_scale ex_h] /\ usable_factors [h_shift ex_h] /\
  (forall a b, amount [h_scale ex_h] (h_scale ex_h) a -> amount [h_shift ex_h] (h_shift ex_h) b ->
    let d := number_type (Integer false) (h_width ex_h) in fits d a /\ fits (match a with Some c => result_type d c | None => d end) b) /\
  length (bytes_ [1; 0; 2; 1; 255; 255]%nat) = (h_items ex_h * h_width ex_h)%nat /\
  exists x y z, read_histogram (fun _ => NaN) (fun c => c) false (bytes_ [9; 1; 0; 2; 1; 255; 255]%nat) ex_hist $"IMAGE_HISTOGRAM" 1 =
    Ok [mkFC $"IMAGE_HISTOGRAM_0" (CT DF64) [VNum (EF (Fin x))]; mkFC $"IMAGE_HISTOGRAM_1" (CT DF64) [VNum (EF (Fin y))];
        mkFC $"IMAGE_HISTOGRAM_2" (CT DF64) [VNum (EF (Fin z))]] /\ (x == 1 # 2)%Q /\ (y == 129)%Q /\ (z == 65535 # 2)%Q.
Proof.
  split; [|split; [|split; [|split; [|split; [|split; [|split; [|split; [|split]]]]]]]].
  - split; [now right|]. do 3 (split; [reflexivity|]). split; [now left|]. do 4 (split; [reflexivity|]). split; [discriminate|]. split; unmentioned.
  - apply is_number.
    + apply p_integer.
      * split; [right; exists $"LSB_UNSIGNED_", []; reflexivity|]. rewrite <- contains_iff. discriminate.
      * cbn. auto.
      * split; [intros _|reflexivity]. exists $"LSB", $"_UNSIGNED_INTEGER". split; [cbn; auto|reflexivity].
      * split; [intros _|reflexivity]. exists $"LSB_", $"_INTEGER". reflexivity.
    + discriminate.
    + intros (p & rest & [<-|[<-|[]]] & E & _); discriminate E.
    + unmentioned.
  - unmentioned.
  - discriminate.
  - unmentioned.
  - split; [constructor; [right; right; now eexists|constructor]|intros z [X|[]]; discriminate X].
  - split; [constructor; [now left|constructor]|intros z [X|[]]; discriminate X].
  - intros a b A B. cbn in A, B. inversion B; subst. inversion A; subst; cbn; auto.
  - reflexivity.
  - eexists _, _, _. split; [vm_compute; reflexivity|]. repeat split; vm_compute; reflexivity.
Qed.
Example C81_counts_meets : forall p q, read_histogram p q true (bytes_ [7; 8]%nat) [($"NAME", PStr $"H"); ($"ITEMS", PInt 1); ($"DATA_TYPE", PStr $"MSB_UNSIGNED_INTEGER"); ($"ITEM_BYTES", PInt 2)] $"HISTOGRAM" 0 =
  Ok [mkFC $"H" (CT (DInt false 2)) [VNum (EI 1800)]].
Proof. intros p q. vm_compute. reflexivity. Qed.
(** a histogram without ITEMS is one value, and one column may be named RESERVED *)
Example C81_one_value_meets : forall p q, read_histogram p q true (bytes_ [7; 8]%nat) [($"NAME", PStr $"RESERVED"); ($"DATA_TYPE", PStr $"MSB_UNSIGNED_INTEGER"); ($"BYTES", PInt 2)] $"HISTOGRAM" 0 =
  Ok [mkFC $"RESERVED" (CT (DInt false 2)) [VNum (EI 1800)]].
Proof. intros p q. vm_compute. reflexivity. Qed.

(** ** What can go wrong *)
(** BYTES without ITEM_BYTES is taken for the width of each item: of a histogram of 4 items
    in 8 bytes nothing is read. *)
Theorem C81_total_bytes_refuted : exists m, md_get m $"ITEMS" = Some (PInt 4) /\ md_get m $"BYTES" = Some (PInt 8) /\ md_get m $"ITEM_BYTES" = None /\
  read_histogram (fun _ => NaN) (fun c => c) false (bytes_ [1; 0; 2; 0; 3; 0; 4; 0]%nat) m $"HISTOGRAM" 0 =
  Ok [mkFC $"HISTOGRAM_0" (CT (DInt false 8)) []; mkFC $"HISTOGRAM_1" (CT (DInt false 8)) []; mkFC $"HISTOGRAM_2" (CT (DInt false 8)) []; mkFC $"HISTOGRAM_3" (CT (DInt false 8)) []].
Proof.
  exists [($"ITEMS", PInt 4); ($"BYTES", PInt 8); ($"DATA_TYPE", PStr $"LSB_UNSIGNED_INTEGER")]. repeat (split; [reflexivity|]). vm_compute. reflexivity.
Qed.
Print Assumptions C81_total_bytes_refuted.
(** No items is one item. *)
Theorem C81_no_items_refuted : exists m, md_get m $"ITEMS" = Some (PInt 0) /\
  read_histogram (fun _ => NaN) (fun c => c) false (bytes_ [5]%nat) m $"HISTOGRAM" 0 = Ok [mkFC $"HISTOGRAM" (CT (DInt false 1)) [VNum (EI 5)]].
Proof. exists [($"ITEMS", PInt 0); ($"ITEM_BYTES", PInt 1); ($"DATA_TYPE", PStr $"UNSIGNED_INTEGER")]. split; [reflexivity|]. vm_compute. reflexivity. Qed.
Print Assumptions C81_no_items_refuted.
