(** Proofs about the values of binary PDS3 tables. *)
From Coq Require Import QArith Qabs Lqa Lia ZArith.
From Verif.Base Require Import Py PyFacts Val Numpy Float.
From Verif.Model Require Import Types Scaling Pds4Types Pds4Values Ibm Table Array Pds4Frame TableValues.
From Verif.Spec Require Import Types Ibm Pds4Values Array Table TableValues.
From Verif.Spec Require Scaling.
From Verif.Proofs Require Import Scaling Pds4Values Array Table TableLabel Pds4Names Pds4Frame.
From Verif.Properties Require Types Ibm.
From Verif.Properties Require Import Table.
From Verif.Spec Require Import Table TableValues.
From Verif.Proofs Require Import Table.
Open Scope Z_scope.

(** ** Names *)
Fixpoint variants (x : str) : list str :=
  match x with
  | [] => [[]]
  | c :: x => if Ascii.eqb c "_" then map (cons "_"%char) (variants x) ++ map (cons " "%char) (variants x) else map (cons c) (variants x)
  end.
Lemma variant_of name x : underscored name = x -> In name (variants x).
Proof.
  revert x. induction name as [|c name IH]; intros x <-; [now left|]. cbn [underscored map variants]. fold (underscored name).
  specialize (IH _ eq_refl). destruct (Ascii.eqb_spec c " ") as [->|N].
  - cbn [Ascii.eqb Bool.eqb]. change (Ascii.eqb "_" "_") with true. apply in_or_app. right. now apply in_map.
  - destruct (Ascii.eqb_spec c "_") as [->|M]; [apply in_or_app; left|]; now apply in_map.
Qed.
Lemma matches_foreign p name : In p [$"IBM"; $"VAX"] -> matches p name = true -> foreign_real name.
Proof.
  intros Hp H. unfold matches in H. apply andb_true_iff in H as [H1 H2]. apply startswith_iff in H1 as [rest ->].
  rewrite skipn_app, skipn_all, Nat.sub_diag in H2. cbn [app skipn] in H2. apply contains_iff in H2 as (a & b & E).
  exists p, rest. split; [exact Hp|]. split; [reflexivity|]. now exists a, b.
Qed.
Lemma not_foreign name : ~ foreign_real name -> matches $"IBM" name = false /\ matches $"VAX" name = false.
Proof.
  intros H. split; apply not_true_iff_false; intros E; apply H; eapply matches_foreign; try exact E; cbn; auto.
Qed.
Lemma not_mentioned w name : ~ mentions w name -> contains w name = false.
Proof. intros H. apply not_true_iff_false. intros E. apply H. apply contains_iff in E as (a & b & ->). now exists a, b. Qed.

(** ** Types *)
Definition t_kind_of (k : kind) (w : nat) : tmeaning :=
  match k with
  | Number o f => t_of o f w
  | Boolean => t_of MSB (Integer true) w
  | Characters => mkT NoOrder KBytes w
  | Opaque | Ebcdic => mkT NoOrder KVoid w
  | IbmShort | IbmLong => mkT Big KUnsigned w
  | VaxReal => mkT Little KUnsigned w
  end.
Lemma kind_type name w k : of_kind name w k -> exists s, sample_types name w true = Ok s /\ numpy_meaning s = Some (t_kind_of k w).
Proof.
  intros [o f T _ _ _|E W|C W|C W|C W|C E|C E|C E].
  - now apply (pds3_known name w o f).
  - subst name. apply (pds3_known _ w MSB (Integer true)). apply p_integer; [split; [now left|]|exact W|split; [discriminate|]|split; [discriminate|]].
    + intros (a & b & E). assert (X : contains $"ASCII" $"BOOLEAN" = true) by (apply contains_iff; now exists a, b). discriminate X.
    + intros (p & rest & [<-|[<-|[<-|[]]]] & E); discriminate E.
    + intros (a & b & E). assert (X : contains $"UNSIGNED" $"BOOLEAN" = true) by (apply contains_iff; now exists a, b). discriminate X.
  - apply Types.C17_text. cbn in C. decompose [or] C; try contradiction; subst name; cbn; tauto.
  - apply Types.C17_opaque. cbn in C |- *. tauto.
  - apply Types.C17_opaque. cbn in C |- *. tauto.
  - apply (Types.C17_reals name w); [subst w; cbn; tauto|assumption].
  - apply (Types.C17_reals name w); [subst w; cbn; tauto|assumption].
  - apply (Types.C17_reals name w); [subst w; cbn; tauto|assumption|assumption].
Qed.
Lemma kind_size k w : t_size (t_kind_of k w) = w.
Proof. now destruct k. Qed.
Lemma kind_pos name w k : of_kind name w k -> (0 < w)%nat.
Proof. intros [o f T _ _ _|E W|C W|C W|C W|C E|C E|C E]; try lia; [eapply pds3_pos, T|cbn in W; lia]. Qed.

(** ** Cells *)
Lemma drop_nul_spec s : no_final_nul (drop_nuls s) /\ exists n, s = drop_nuls s ++ repeat "000"%char n.
Proof.
  unfold drop_nuls, rstrip_by. destruct (lstrip_by_spec (fun c => Ascii.eqb c "000"%char) (rev s)) as (w & Ew & Hw & Hn). split.
  - destruct (lstrip_by _ (rev s)) as [|c u] eqn:L; [now left|]. right. exists (rev u), c. split; [reflexivity|]. cbn in Hn. now apply Ascii.eqb_neq.
  - exists (length w). rewrite <- (rev_involutive s) at 1. rewrite Ew at 1. rewrite rev_app_distr. f_equal. clear - Hw.
    assert (X : w = repeat "000"%char (length w)). { induction Hw as [|c w H _ IH]; [reflexivity|]. cbn. apply Ascii.eqb_eq in H. now f_equal. }
    rewrite X at 1. clear. induction (length w) as [|n IH]; [reflexivity|]. cbn. rewrite IH. clear. induction n; [reflexivity|]. cbn. now f_equal.
Qed.
Lemma le_zero bs : le_value bs = 0 <-> forall c, In c bs -> c = "000"%char.
Proof.
  induction bs as [|b bs IH]; [easy|]. cbn [le_value]. pose proof (byte_range b). pose proof (le_range bs). split.
  - intros E c [<-|H1]; [|apply IH; [lia|exact H1]]. assert (B : byte_val b = 0) by lia. unfold byte_val in B.
    rewrite <- (ascii_nat_embedding b). now replace (nat_of_ascii b) with 0%nat by lia.
  - intros E. rewrite (E b (or_introl eq_refl)), (proj2 IH) by (intros c Hc; apply E; now right). reflexivity.
Qed.
Lemma word_zero o bs : word o bs = 0 <-> forall c, In c bs -> c = "000"%char.
Proof. destruct o; cbn [word]; rewrite le_zero; try reflexivity. split; intros H c Hc; apply H; [now apply in_rev in Hc|now apply in_rev]. Qed.
Lemma pow256 w : 256 ^ Z.of_nat w = 2 ^ (8 * Z.of_nat w).
Proof. rewrite Z.pow_mul_r by lia. reflexivity. Qed.
Lemma width_int w : In w [1; 2; 4; 8]%nat -> Scaling.numpy_int (Z.of_nat w).
Proof. unfold Scaling.numpy_int. cbn. lia. Qed.
Lemma wrap_zero s w z : In w [1; 2; 4; 8]%nat -> 0 <= z < 256 ^ Z.of_nat w -> wrap s (Z.of_nat w) z = 0 <-> z = 0.
Proof.
  intros W R. rewrite pow256 in R. assert (P : 0 < 2 ^ (8 * Z.of_nat w)) by (apply Z.pow_pos_nonneg; lia).
  split.
  - destruct (wrap_congr s w z) as [k ->]. intros E. clear W. set (X := 2 ^ (8 * Z.of_nat w)) in *. clearbody X.
    destruct (Z.eq_dec k 0) as [->|N]; [lia|]. destruct (Z.le_gt_cases 1 k); nia.
  - intros ->. apply wrap_id; [now apply width_int|]. unfold Scaling.int_holds. destruct s; [|lia].
    assert (0 < 2 ^ (8 * Z.of_nat w - 1)) by (apply Z.pow_pos_nonneg; cbn in W; lia). lia.
Qed.
Lemma unsigned_word o w bs : In w [1; 2; 4; 8]%nat -> length bs = w -> exists n, wrap false (Z.of_nat w) (word (order_of o) bs) = Z.of_N n /\
  written o w (Z.of_N n) bs /\ (n < 2 ^ (8 * N.of_nat w))%N.
Proof.
  intros W L. pose proof (word_range (order_of o) bs) as R. rewrite L, pow256 in R.
  exists (Z.to_N (word (order_of o) bs)). rewrite Z2N.id by lia. split; [|split].
  - apply wrap_id; [now apply width_int|]. unfold Scaling.int_holds. exact R.
  - now apply word_written.
  - apply N2Z.inj_lt. rewrite Z2N.id by lia. rewrite N2Z.inj_pow, N2Z.inj_mul, nat_N_Z. exact (proj2 R).
Qed.
(** ** Singles *)
Lemma single_nearest q q' : (q' == q)%Q -> (Qabs q <= Model.Ibm.f32_max)%Q -> Scaling.nearest DF32 q (round32 q').
Proof.
  intros E B. assert (B' : (Qabs q' <= Model.Ibm.f32_max)%Q) by now rewrite E.
  apply (nearest_eq DF32 q'); [now symmetry|]. change (round32 q') with (round_to DF32 q'). apply nearest_round; [exact I|].
  change (fmax DF32) with Model.Ibm.f32_max. cbn [round_to].
  assert (G : on_grid 24 (-149) Model.Ibm.f32_max) by (exists (2 ^ 24 - 1), 104; repeat split; vm_compute; discriminate || reflexivity).
  assert (G' : on_grid 24 (-149) (- Model.Ibm.f32_max)) by (exists (- (2 ^ 24 - 1)), 104; repeat split; vm_compute; discriminate || reflexivity).
  unfold round32. apply Qabs_Qle_condition in B' as [B1 B2].
  pose proof (round_ne_nearest 24 (-149) q' _ ltac:(lia) G) as N1. pose proof (round_ne_nearest 24 (-149) q' _ ltac:(lia) G') as N2.
  rewrite (Qabs_pos (Model.Ibm.f32_max - q')) in N1 by lra. rewrite (Qabs_neg (- Model.Ibm.f32_max - q')) in N2 by lra.
  apply Qabs_Qle_condition in N1 as [N1 N1']. apply Qabs_Qle_condition in N2 as [N2 N2'].
  apply Qabs_Qle_condition. split; lra.
Qed.
Section Foreign.
Variable from_vax32 : N -> num.
Variable cp500 : ascii -> ascii.
Lemma rmap_map {A B} (f : A -> res B) (g : A -> B) l : (forall x, In x l -> f x = Ok (g x)) -> rmap f l = Ok (map g l).
Proof.
  induction l as [|x l IH]; intros H; [reflexivity|]. cbn [rmap map]. rewrite (H x (or_introl eq_refl)), IH; [reflexivity|].
  intros y Hy. apply H. now right.
Qed.
Lemma F2_map {A B} (R : A -> B -> Prop) (f : A -> B) l : (forall x, In x l -> R x (f x)) -> Forall2 R l (map f l).
Proof. induction l as [|x l IH]; intros H; constructor; [apply H; now left|]. apply IH. intros y Hy. apply H. now right. Qed.
Lemma words_of o w cells : In w [1; 2; 4; 8]%nat -> Forall (fun bs => length bs = w) cells ->
  exists ws, rmap int_cell (map (np_cell (mkT (order_of o) KUnsigned w)) cells) = Ok ws /\
    Forall2 (fun bs n => written o w (Z.of_N n) bs /\ (n < 2 ^ (8 * N.of_nat w))%N) cells ws.
Proof.
  intros W H. induction H as [|bs cells L _ (ws & E & F)]; [exists []; split; [reflexivity|constructor]|].
  destruct (unsigned_word o w bs W L) as (n & En & Wn & Rn). exists (n :: ws). cbn [map rmap]. rewrite E.
  unfold np_cell at 1. cbn [t_kind t_size t_order int_cell]. rewrite En, N2Z.id. split; [reflexivity|]. now constructor.
Qed.
Ltac name_cases H := apply variant_of in H; cbn in H; repeat (destruct H as [H|H]; [subst|]); [..|contradiction].
Lemma convert_ok name w k bytes cells : of_kind name w k -> (k = IbmShort \/ k = IbmLong -> bytes = Z.of_nat w) -> (k = IbmShort -> cells <> []) ->
  Forall (fun bs => length bs = w) cells ->
  exists ct vs, convert_column from_vax32 cp500 name bytes (t_kind_of k w) cells = Ok (ct, vs) /\
    Forall2 (cell_value from_vax32 cp500 k w) cells vs /\ match k with Number o f => ct = CT (number_type f w) | _ => True end.
Proof.
  intros K Hb Hne HL. unfold convert_column. destruct K as [o f T NB NF NE|E W|C W|C W|C W|C E|C E|C E]; cbn [t_kind_of].
  - destruct (not_foreign name NF) as [-> ->]. rewrite (not_mentioned _ _ NE). cbn [rbind snd].
    assert (X : str_eqb name $"BOOLEAN" = false) by now apply str_eqb_neq. rewrite X.
    eexists _, _. split; [reflexivity|]. split; [|unfold plain_type; pose proof (pds3_width _ _ _ _ T) as PW; destruct f as [[|]| |]; cbn [t_of t_kind t_size number_type]; try reflexivity; contradiction].
    rewrite map_map. apply F2_map. intros bs Hin. rewrite Forall_forall in HL. destruct (cell_ok name w o f bs T (HL bs Hin)) as (p & Ep & Hp).
    exists p. unfold np_cell in *. rewrite Ep. split; [reflexivity|exact Hp].
  - subst name. change (matches $"IBM" $"BOOLEAN") with false. change (matches $"VAX" $"BOOLEAN") with false. change (contains $"EBCDIC" $"BOOLEAN") with false. cbn [rbind snd].
    change (str_eqb $"BOOLEAN" $"BOOLEAN") with true. cbn iota. eexists _, _. split; [reflexivity|]. split; [|exact I].
    rewrite !map_map. apply F2_map. intros bs Hin. rewrite Forall_forall in HL. cbn [cell_value]. eexists. split; [reflexivity|].
    unfold t_of, np_cell. cbn [t_kind t_size t_order plain_cell truthy]. rewrite negb_true_iff, Z.eqb_neq.
    rewrite wrap_zero; [|exact W|rewrite <- (HL bs Hin); apply word_range]. rewrite word_zero. split.
    + intros N. clear - N. induction bs as [|c bs IH]; [exfalso; apply N; intros c []|].
      destruct (Ascii.ascii_dec c "000"%char) as [->|D]; [|exists c; split; [now left|exact D]].
      destruct IH as (d & Hd & Nd); [|exists d; split; [now right|exact Nd]]. intros H. apply N. intros d [<-|Hd]; [reflexivity|now apply H].
    + intros (c & Hc & Nc) H. now apply Nc, H.
  - assert (X : matches $"IBM" name = false /\ matches $"VAX" name = false /\ contains $"EBCDIC" name = false /\ str_eqb name $"BOOLEAN" = false).
    { cbn in C. repeat (destruct C as [<-|C]; [repeat split|]). contradiction. }
    destruct X as (-> & -> & -> & ->). cbn [rbind snd]. eexists _, _. split; [reflexivity|]. split; [|exact I].
    rewrite map_map. apply F2_map. intros bs _. unfold np_cell. cbn [t_kind plain_cell cell_value]. destruct (drop_nul_spec bs) as (N & n & En).
    exists (drop_nuls bs), n. auto.
  - assert (X : matches $"IBM" name = false /\ matches $"VAX" name = false /\ contains $"EBCDIC" name = false /\ str_eqb name $"BOOLEAN" = false).
    { cbn in C. repeat (destruct C as [C|C]; [symmetry in C; name_cases C; repeat split; reflexivity|]). contradiction. }
    destruct X as (-> & -> & -> & ->). cbn [rbind snd]. eexists _, _. split; [reflexivity|]. split; [|exact I].
    rewrite map_map. apply F2_map. intros bs _. reflexivity.
  - assert (X : matches $"IBM" name = false /\ matches $"VAX" name = false /\ contains $"EBCDIC" name = true /\ str_eqb name $"BOOLEAN" = false).
    { cbn in C. repeat (destruct C as [C|C]; [symmetry in C; name_cases C; repeat split; reflexivity|]). contradiction. }
    destruct X as (-> & -> & -> & ->). cbn [rbind snd]. rewrite map_map. unfold np_cell. cbn [t_kind plain_cell].
    rewrite (rmap_map _ (fun v => match v with VBytes s => VText (map cp500 s) | _ => v end)) by (intros v Hv; apply in_map_iff in Hv as (bs & <- & _); reflexivity).
    cbn [rbind]. eexists _, _. split; [reflexivity|]. split; [|exact I]. rewrite map_map. apply F2_map. intros bs _. reflexivity.
  - assert (X : matches $"IBM" name = true /\ contains $"EBCDIC" name = false /\ str_eqb name $"BOOLEAN" = false).
    { name_cases C; repeat split; reflexivity. }
    destruct X as (-> & -> & ->). subst w. rewrite (Hb (or_introl eq_refl)) in *. destruct (words_of MSB 4 cells ltac:(cbn; tauto) HL) as (ws & Ew & Fw).
    cbn [order_of] in Ew. rewrite Ew. cbn [rbind snd]. assert (X : match ws with [] => true | _ => false end = false) by (destruct Fw; [exfalso; now apply Hne|reflexivity]).
    rewrite X, andb_false_r. cbn [rbind snd]. clear X Hne. eexists _, _. split; [reflexivity|]. split; [|exact I].
    change (Z.of_nat 4) with 4. unfold convert_ibm_column. change (4 =? 4) with true. cbn iota.
    destruct Ibm.C53_ieee as [R _]. destruct (Ibm.C53_short round64 R) as [X S]. destruct (too_wide _) eqn:Ebig.
    + clear Ebig Ew Hb HL. induction Fw as [|bs n cells ws [Wn Rn] _ IH]; cbn [map]; constructor; [|exact IH].
      destruct (X n Rn) as (s & e & f & Ok1 & ->). exists s, e, f. eexists. split; [exact Ok1|]. split; [exact Wn|]. split; [reflexivity|]. left. now apply S.
    + unfold too_wide in Ebig. apply orb_false_iff in Ebig as [Ebig _].
      assert (Hbig : Forall (fun n => (Qabs (ibm32_to_np_f32 round64 n) <= Model.Ibm.f32_max)%Q) ws).
      { apply Forall_forall. intros n Hn. apply Qle_bool_iff. destruct (Qle_bool _ _) eqn:Eq; [reflexivity|]. exfalso.
        apply not_true_iff_false in Ebig. apply Ebig. apply existsb_exists. exists (ibm32_to_np_f32 round64 n). split; [now apply in_map|]. now rewrite Eq. }
      clear Ebig Ew Hb HL. rewrite !map_map. induction Fw as [|bs n cells ws [Wn Rn] _ IH]; cbn [map]; constructor; [|apply IH; now inversion Hbig].
      destruct (X n Rn) as (s & e & f & Ok1 & ->). exists s, e, f. eexists. split; [exact Ok1|]. split; [exact Wn|]. split; [reflexivity|]. right.
      apply single_nearest; [now apply S|]. inversion Hbig as [|? ? B _]; subst. now rewrite (S _ _ _ Ok1) in B.
  - assert (X : matches $"IBM" name = true /\ contains $"EBCDIC" name = false /\ str_eqb name $"BOOLEAN" = false).
    { name_cases C; repeat split; reflexivity. }
    destruct X as (-> & -> & ->). subst w. rewrite (Hb (or_intror eq_refl)) in *. destruct (words_of MSB 8 cells ltac:(cbn; tauto) HL) as (ws & Ew & Fw).
    cbn [order_of] in Ew. rewrite Ew. change (Z.of_nat 8 =? 4) with false. cbn [rbind snd andb]. clear Hne. eexists _, _. split; [reflexivity|]. split; [|exact I].
    change (Z.of_nat 8) with 8. unfold convert_ibm_column. change (8 =? 4) with false. cbn iota.
    clear Ew Hb HL. rewrite map_map. induction Fw as [|bs n cells ws [Wn Rn] _ IH]; cbn [map]; constructor; [|exact IH].
    destruct (Ibm.word_exists 56 n Rn) as (s & e & f & Ok1 & ->). exists s, e, f. eexists. split; [exact Ok1|]. split; [exact Wn|]. split; [reflexivity|].
    destruct (Ibm.C53_long_nearest s e f Ok1) as [G N]. split.
    + split; [exact G|]. eapply Qle_trans; [apply Ibm.long_bound, Ok1|]. vm_compute. discriminate.
    + intros y [Gy _]. now apply N.
  - assert (X : matches $"IBM" name = false /\ matches $"VAX" name = true /\ contains $"EBCDIC" name = false /\ str_eqb name $"BOOLEAN" = false).
    { name_cases C; repeat split; reflexivity. }
    destruct X as (-> & -> & -> & ->). subst w. destruct (words_of LSB 4 cells ltac:(cbn; tauto) HL) as (ws & Ew & Fw).
    cbn [order_of] in Ew. rewrite Ew. cbn [rbind snd]. eexists _, _. split; [reflexivity|]. split; [|exact I].
    clear Ew Hb HL Hne. induction Fw as [|bs n cells ws [Wn Rn] _ IH]; cbn [map]; constructor; [|exact IH].
    exists n. auto.
Qed.
End Foreign.

(** ** The columns of the frame, along the columns of the label *)
Section Along.
Context {X Y : Type} (f : X -> Y) (g : column -> Y).
Let P (_ : context) (c : column) (x : X) : Prop := f x = g c.
Lemma along_col cx c l : col_shape P cx c l -> map f l = repeat (g c) (count c).
Proof.
  intros [Hl H]. rewrite <- Hl. clear Hl. induction H as [|x l E _ IH]; [reflexivity|]. cbn [map length repeat]. now rewrite E, IH.
Qed.
Lemma cells_count base c : map (fun _ : Z * Z => g c) (column_cells base c) = repeat (g c) (count c).
Proof.
  unfold column_cells, count. destruct (c_items c) as [[[n w] d]|]; [|reflexivity]. rewrite map_map.
  generalize 0%nat as s. induction (Z.to_nat n) as [|k IH]; intros s; [reflexivity|]. cbn [seq map repeat]. now rewrite IH.
Qed.
Definition of_places (l : list (Z * column)) : list (column * (Z * Z)) := flat_map (fun x => map (pair (snd x)) (column_cells (fst x) (snd x))) l.
Lemma along_cols cx cols l base : cols_shape P cx cols l -> map f l = map (fun p => g (fst p)) (of_places (map (fun c => (base, c)) cols)).
Proof.
  intros (ll & -> & H). induction H as [|c l cols ll Hc _ IH]; [reflexivity|]. cbn [List.concat map of_places flat_map fst snd].
  rewrite !map_app, IH. f_equal. rewrite (along_col _ _ _ Hc), map_map. symmetry. exact (cells_count base c).
Qed.
Lemma of_places_app a b : of_places (a ++ b) = of_places a ++ of_places b.
Proof. apply flat_map_app. Qed.
Lemma along_elem cx e l base : elem_shape P cx e l -> map f l = map (fun p => g (fst p)) (of_places (places base e)).
Proof.
  destruct e as [c|n s b r cols]; cbn [elem_shape places].
  - intros H. cbn [of_places flat_map fst snd]. rewrite app_nil_r, (along_col _ _ _ H), map_map. symmetry. exact (cells_count base c).
  - intros (ll & -> & Hl & H). rewrite <- Hl. clear Hl. generalize 0%nat as k. induction H as [|l ll Hc _ IH]; intros k; [reflexivity|].
    cbn [List.concat length seq flat_map]. rewrite map_app, of_places_app, map_app, (IH (S k)). f_equal. now apply (along_cols (Some n, r, Some b)).
Qed.
Lemma along_table cx t l base : table_shape P cx t l -> map f l = map (fun p => g (fst p)) (table_columns base t).
Proof.
  intros (ll & -> & H). unfold table_columns. fold (of_places (table_places base t)). unfold table_places.
  induction H as [|e l t ll He _ IH]; [reflexivity|]. cbn [List.concat flat_map]. rewrite map_app, of_places_app, map_app, IH. f_equal.
  now apply (along_elem cx).
Qed.
End Along.
Lemma columns_cells base t : map snd (table_columns base t) = table_cells base t.
Proof.
  unfold table_columns, table_cells. induction (table_places base t) as [|[b c] l IH]; [reflexivity|]. cbn [flat_map fst snd].
  rewrite map_app, IH, map_map. f_equal. apply map_id.
Qed.
Lemma F2_self {A B} (R : A -> B -> Prop) (f : A -> B) (l : list A) : (forall x, In x l -> R x (f x)) -> Forall2 R l (map f l).
Proof. exact (F2_map R f l). Qed.
Lemma shape_imp {X} (P Q : context -> column -> X -> Prop) cx t l : (forall cx c x, P cx c x -> Q cx c x) -> table_shape P cx t l -> table_shape Q cx t l.
Proof.
  intros H S. refine (table_transfer P Q eq _ cx t l l S _).
  - intros cx' c x y Hx <-. now apply H.
  - clear. induction l; constructor; auto.
Qed.
(** what the format definition says of each column *)
Lemma rows_along load bits fuel m name t blk bb prefix suffix bytes :
  says_table m t -> named m blk -> may_hold m $"BYTES" bb -> row_measures m prefix suffix bytes ->
  good_table blk t -> name <> $"CONTAINER" -> (3 <= fuel)%nat ->
  exists rows tail, parse_table_structure load bits fuel m name = Ok (rows, tail) /\ tail_row (mkI prefix suffix bytes) rows = Ok tail /\
    map cell_of rows = map snd (table_columns (opt0 prefix) t) /\
    map (fun o => row_keys (o_row o)) rows = map (fun x => col_keys (fst x)) (table_columns (opt0 prefix) t) /\
    map (fun o => r_bytes (o_row o)) rows = map (fun x => c_bytes (fst x)) (table_columns (opt0 prefix) t) /\
    exists named_, map fst named_ = map (fun x => c_name (fst x)) (table_columns (opt0 prefix) t) /\
      map (fun o => r_name (o_row o)) rows = reindex_names named_.
Proof.
  intros Hs Hn Hb Hm Hg Hc Hf.
  destruct (table_read load bits fuel m name t blk bb prefix suffix bytes) as (rows & tail & E & Hcells & Ht & fields & nd & _ & Hfs & Hrs & Hnames); auto.
  exists rows, tail. split; [exact E|]. split; [exact Ht|]. split; [now rewrite columns_cells|]. split; [|split].
  - rewrite <- (map_map o_row row_keys). apply (along_table row_keys col_keys (blk, 1, bb)). eapply shape_imp; [|exact Hrs].
    intros cx c r (_ & _ & _ & _ & K). exact K.
  - rewrite <- (map_map o_row r_bytes). apply (along_table r_bytes c_bytes (blk, 1, bb)). eapply shape_imp; [|exact Hrs].
    intros cx c r (_ & _ & K & _). exact K.
  - exists (map (fun f => (name_of f, start_text f)) fields). split; [|exact Hnames]. rewrite map_map. cbn [fst].
    apply (along_table name_of c_name (blk, 1, bb)). eapply shape_imp; [|exact Hfs]. now intros cx c r [K _].
Qed.

(** ** Arithmetic *)
Lemma fconv_mod d q : Scaling.is_float d -> Scaling.moderate d q -> fconv d q = Fin (round_to d q) /\ Scaling.nearest d q (round_to d q).
Proof.
  intros F M. destruct (to_float_ok d q F (moderate_top d q M)) as [E N]. split; [|exact N].
  unfold to_float in E. unfold fconv. destruct (Qle_bool _ _); [reflexivity|discriminate E].
Qed.
Lemma elt_op_ok o d c x : Scaling.proper_type d -> combined o d c x (elt_op o d c x).
Proof.
  intros P. assert (F : Scaling.is_float (result_type d c) -> (forall s b z v, d = DInt s b -> c = SI z -> x = EI v -> False) ->
    elt_op o d c x = EF (num_op o (promote d c) (match x with EI v => fconv (promote d c) (inject_Z v) | EF y => y end) (fconv (promote d c) (scalar_q c))) ->
    let d' := result_type d c in
    Scaling.moderate d' (scalar_q c) -> exists c', Scaling.nearest d' (scalar_q c) c' /\
      match value_of x with
      | Fin q => Scaling.moderate d' q -> exists q', (match x with EI _ => Scaling.nearest d' q q' | EF _ => q' = q end) /\
          (Scaling.moderate d' (op_Q o q' c') -> exists r, elt_op o d c x = EF (Fin r) /\ Scaling.nearest d' (op_Q o q' c') r)
      | NaN => elt_op o d c x = EF NaN
      | Inf n => match o with
          | OAdd => elt_op o d c x = EF (Inf n)
          | OMul => ((0 < c')%Q -> elt_op o d c x = EF (Inf n)) /\ ((c' < 0)%Q -> elt_op o d c x = EF (Inf (negb n))) /\ ((c' == 0)%Q -> elt_op o d c x = EF NaN)
          end
      end).
  { intros F _ -> d' M. change (promote d c) with d'. fold d' in F. destruct (fconv_mod d' _ F M) as [-> N]. exists (round_to d' (scalar_q c)). split; [exact N|].
    set (c' := round_to d' (scalar_q c)). destruct x as [v|[q| |n]]; cbn [value_of].
    - intros Mq. destruct (fconv_mod d' _ F Mq) as [-> Nq]. eexists. split; [exact Nq|]. intros Mr. cbn [num_op].
      assert (Q : q_op o (round_to d' (inject_Z v)) c' = op_Q o (round_to d' (inject_Z v)) c') by now destruct o. rewrite Q.
      destruct (fconv_mod d' _ F Mr) as [-> Nr]. eexists. split; [reflexivity|exact Nr].
    - intros _. exists q. split; [reflexivity|]. intros Mr. cbn [num_op].
      assert (Q : q_op o q c' = op_Q o q c') by now destruct o. rewrite Q.
      destruct (fconv_mod d' _ F Mr) as [-> Nr]. eexists. split; [reflexivity|exact Nr].
    - reflexivity.
    - destruct o; cbn [num_op]; [|reflexivity]. unfold q_sign. destruct c' as [[|m|m] p]; unfold Qlt, Qeq; cbn; repeat split; intros H; try reflexivity; lia. }
  destruct d as [s b| |], c as [z|q].
  - unfold combined. intros v ->. cbn [elt_op]. eexists. split; [reflexivity|]. cbn in P.
    assert (W : exists w, b = Z.of_nat w /\ (0 < w)%nat) by (exists (Z.to_nat b); unfold Scaling.numpy_int in P; lia). destruct W as (w & -> & Hw).
    split; [exact (wrap_range s w _ Hw)|]. destruct (wrap_congr s w (op_Z o v z)) as [k Ek]. exists k. rewrite <- Ek. now destruct o.
  - refine (F I _ eq_refl). intros ? ? ? ? _ E; discriminate E.
  - refine (F I _ eq_refl). intros ? ? ? ? E; discriminate E.
  - refine (F I _ eq_refl). intros ? ? ? ? E; discriminate E.
  - refine (F I _ eq_refl). intros ? ? ? ? E; discriminate E.
  - refine (F I _ eq_refl). intros ? ? ? ? E; discriminate E.
Qed.

(** ** Factors *)
Lemma all_ints_iff l : all_ints l = true <-> Forall is_int l.
Proof.
  unfold all_ints. rewrite forallb_forall, Forall_forall. split; intros H v Hv; specialize (H v Hv).
  - destruct v as [[]|]; try discriminate H. eexists; reflexivity.
  - destruct H as [z ->]. reflexivity.
Qed.
Lemma all_numbers_ok l : Forall is_number_or_none l -> all_numbers l = true.
Proof.
  intros H. unfold all_numbers. apply forallb_forall. intros v Hv. rewrite Forall_forall in H. destruct (H v Hv) as [->|[[z ->]|[q ->]]]; reflexivity.
Qed.
Lemma nearest_int_nonzero z r : z <> 0 -> Scaling.nearest DF64 (inject_Z z) r -> ~ (r == 0)%Q.
Proof.
  intros Hz [_ N] E. set (u := Z.sgn z). assert (H : Scaling.holds DF64 (inject_Z u)).
  { assert (U : u = 1 \/ u = 0 \/ u = -1) by (unfold u; lia). clearbody u. split; [|destruct U as [->|[->| ->]]; vm_compute; discriminate].
    exists u, 0. split; [unfold two_to; cbn; ring|]. split; [destruct U as [->|[->| ->]]; reflexivity|lia]. }
  specialize (N _ H). rewrite E in N. assert (A : (0 - inject_Z z == inject_Z (- z))%Q) by (rewrite inject_Z_opp; ring).
  assert (B : (inject_Z u - inject_Z z == inject_Z (u - z))%Q) by (unfold Qminus; rewrite <- inject_Z_opp, <- inject_Z_plus; reflexivity).
  rewrite A, B in N. change (Qabs (inject_Z ?a)) with (inject_Z (Z.abs a)) in N. rewrite <- Zle_Qle in N. unfold u in N. lia.
Qed.
Lemma amount_ok all v : In v all -> usable_factors all -> exists a, amount all v a /\ given (pd_entry all v) = option_map ENum a.
Proof.
  intros Hin [Hall Hmod]. assert (N := all_numbers_ok _ Hall). rewrite Forall_forall in Hall.
  destruct (Hall v Hin) as [->|[[z ->]|[q ->]]].
  - exists None. split; [constructor|reflexivity].
  - unfold pd_entry. rewrite N. cbn [negb]. rewrite orb_false_r. destruct (Z.eq_dec z 0) as [->|Nz].
    + exists None. split; [constructor|]. destruct (all_ints all); [reflexivity|]. vm_compute. reflexivity.
    + destruct (all_ints all) eqn:A.
      * exists (Some (SI z)). split; [apply a_int; [exact Nz|now apply all_ints_iff]|]. cbn [given scalar_q].
        assert (X : Qeq_bool (inject_Z z) 0 = false). { apply not_true_iff_false. intros E. apply Qeq_bool_iff in E. apply Nz. unfold Qeq in E. cbn in E. lia. } now rewrite X.
      * unfold double. destruct (fconv_mod DF64 (inject_Z z) I (Hmod z Hin)) as [-> Nr]. exists (Some (SF (round_to DF64 (inject_Z z)))). split.
        -- apply a_int_real; [exact Nz| |exact Nr]. intros F. apply all_ints_iff in F. congruence.
        -- cbn [given scalar_q]. assert (X : Qeq_bool (round_to DF64 (inject_Z z)) 0 = false).
           { apply not_true_iff_false. intros E. apply Qeq_bool_iff in E. revert E. now apply nearest_int_nonzero with (z := z). } now rewrite X.
  - cbn [pd_entry given scalar_q]. destruct (Qeq_bool q 0) eqn:E.
    + exists None. split; [|reflexivity]. apply a_zero_real. now apply Qeq_bool_iff.
    + exists (Some (SF q)). split; [|reflexivity]. apply a_real. intros X. apply Qeq_bool_iff in X. congruence.
Qed.
Definition all_nums (vs : list vcell) : Prop := Forall (fun v => exists x, v = VNum x) vs.
Lemma apply_ok o v a n d vs : given v = option_map ENum a -> Scaling.proper_type d -> fits d a -> all_nums vs ->
  exists vs', let d' := match a with Some c => result_type d c | None => d end in
    apply_if o v (mkFC n (CT d) vs) = Ok (mkFC n (CT d') vs') /\ operated o a (d, vs) (d', vs') /\ all_nums vs' /\ Scaling.proper_type d'.
Proof.
  intros G P F A. unfold apply_if. rewrite G. destruct a as [c|]; cbn [option_map]; [|exists vs; repeat split; auto].
  unfold series_op. cbn [k_type k_name k_values]. exists (map (fun v => match v with VNum x => VNum (elt_op o d c x) | _ => v end) vs). cbv zeta. split; [|split; [|split]].
  - destruct d as [s b| |], c as [z|q]; try reflexivity. cbn [rbind]. cbn in F. rewrite (proj2 (in_range_holds s b z P) F). reflexivity.
  - split; [reflexivity|]. cbn [fst snd]. apply F2_map. intros w Hw. unfold all_nums in A. rewrite Forall_forall in A. destruct (A w Hw) as [x ->].
    exists x, (elt_op o d c x). repeat split. now apply elt_op_ok.
  - apply Forall_map. eapply Forall_impl; [|exact A]. intros w [x ->]. now eexists.
  - destruct d, c; cbn; auto.
Qed.

(** ** Names *)
Lemma numbered_mentions w n k : Forall (fun c => is_digit c = false /\ c <> "_"%char) w -> mentions w (numbered n k) -> w <> [] -> mentions w n.
Proof.
  intros Hw (a & b & E) Nw. unfold numbered in E. assert (E' : (a ++ w) ++ b = n ++ ($"_" ++ str_of_nat k)) by now rewrite <- app_assoc.
  clear E. apply app_eq_app in E' as (l & [[E1 E2]|[E1 E2]]); [|exists a, l; rewrite E1; now rewrite <- app_assoc].
  destruct l as [|c l _] using rev_ind; [exists a, []; rewrite app_nil_r in *; auto|]. exfalso.
    destruct w as [|d w _] using rev_ind; [contradiction|]. rewrite !app_assoc in E1. apply app_inj_tail in E1 as [_ <-].
    apply Forall_app in Hw as [_ Hw]. apply Forall_inv in Hw as [D1 D2].
    assert (I : In d ($"_" ++ str_of_nat k)) by (rewrite E2, !in_app_iff; cbn; auto). cbn [app] in I. destruct I as [<-|I]; [now apply D2|].
    apply digits_nat_char in I. congruence.
Qed.
Lemma reindexed_name named_ i n s x : nth_error named_ i = Some (n, s) -> n <> $"RESERVED" -> nth_error (reindex_names named_) i = Some x ->
  frame_name (map fst named_) i x.
Proof.
  intros Hi Hr Hx. exists n. split; [rewrite nth_error_map, Hi; reflexivity|].
  destruct (Nat.eq_dec (occurrences (map fst named_) n) 1) as [O|O]; [left|right]; (split; [exact O|]).
  - rewrite (C26_unique_names_kept _ _ _ _ Hi O) in Hx. now injection Hx.
  - rewrite (C26_duplicates_numbered _ _ _ _ Hi O Hr) in Hx. rewrite firstn_map. now injection Hx.
Qed.
Lemma frame_plain names i x : Forall plain_name names -> frame_name names i x -> ~ mentions $"PLACEHOLDER" x.
Proof.
  intros H (n & Hn & [[_ ->]|[_ ->]]); apply nth_error_In in Hn; rewrite Forall_forall in H; destruct (H n Hn) as (_ & _ & M); [exact M|].
  intros X. apply M. apply (numbered_mentions _ n _) in X; [exact X| |discriminate].
  repeat (constructor; [split; [reflexivity|discriminate]|]). constructor.
Qed.
(** ** Lists *)
Lemma rmap_all {A B} (R : A -> B -> Prop) (f : A -> res B) l : (forall x, In x l -> exists y, f x = Ok y /\ R x y) -> exists ys, rmap f l = Ok ys /\ Forall2 R l ys.
Proof.
  induction l as [|x l IH]; intros H; [exists []; split; [reflexivity|constructor]|].
  destruct (H x (or_introl eq_refl)) as (y & E & Hy). destruct IH as (ys & Es & Hys); [intros z Hz; apply H; now right|].
  exists (y :: ys). cbn [rmap]. rewrite E. cbn [rbind]. rewrite Es. split; [reflexivity|now constructor].
Qed.
Lemma rmap_over {A B C} (R : A -> B -> Prop) (S' : A -> C -> Prop) (f : B -> res C) l l' : Forall2 R l l' ->
  (forall x y, In x l -> R x y -> exists z, f y = Ok z /\ S' x z) -> exists zs, rmap f l' = Ok zs /\ Forall2 S' l zs.
Proof.
  induction 1 as [|x y l l' Hxy _ IH]; intros H; [exists []; split; [reflexivity|constructor]|].
  destruct (H x y (or_introl eq_refl) Hxy) as (z & E & Hz). destruct IH as (zs & Es & Hzs); [intros a b Ha; apply H; now right|].
  exists (z :: zs). cbn [rmap]. rewrite E. cbn [rbind]. rewrite Es. split; [reflexivity|now constructor].
Qed.
Lemma F2_index {A B} (R : A -> B -> Prop) l l' i x : Forall2 R l l' -> nth_error l i = Some x -> exists y, nth_error l' i = Some y /\ R x y.
Proof.
  intros H. revert i. induction H as [|a b l l' Hab _ IH]; intros [|i] Hi; try discriminate Hi; cbn in *; [injection Hi as <-; eauto|auto].
Qed.
Lemma find_named {A} (key : A -> str) l x : NoDup (map key l) -> In x l -> find (fun y => str_eqb (key y) (key x)) l = Some x.
Proof.
  induction l as [|y l IH]; intros N Hin; [contradiction|]. destruct Hin as [->|Hx]; cbn [find map] in *; [now rewrite str_eqb_refl|]. inversion N as [|? ? N1 N2]; subst.
  destruct (str_eqb (key y) (key x)) eqn:E; [apply str_eqb_eq in E|now apply IH]. exfalso. apply N1. rewrite E. now apply in_map.
Qed.
Section Foreign.
Variable from_vax32 : N -> num.
Variable cp500 : ascii -> ascii.
(** ** The frame *)
(** one row of the format definition, with the column it is of *)
Definition described : Type := orow * ((column * (Z * Z)) * kind).
Definition described_ok (p : described) : Prop :=
  let '(o, (x, k)) := p in
  cell_of o = snd x /\ row_keys (o_row o) = col_keys (fst x) /\ r_bytes (o_row o) = c_bytes (fst x) /\ kind_of_column x k /\
  (c_items (fst x) = None -> snd (snd x) = c_bytes (fst x)).
Definition width_of (p : described) : nat := Z.to_nat (snd (snd (fst (snd p)))).
Definition type_of (p : described) : tmeaning := t_kind_of (snd (snd p)) (width_of p).
Lemma described_type p : described_ok p -> cell_type (o_row (fst p)) = Ok (type_of p) /\
  exists ty, r_type (o_row (fst p)) = Some (PStr ty) /\ c_type (fst (fst (snd p))) = Some ty.
Proof.
  destruct p as [o [[c [off w]] k]]. unfold type_of, width_of, described_ok, kind_of_column. cbn [fst snd].
  intros (E1 & E2 & E3 & (ty & Et & K & _) & _). unfold row_keys, col_keys in E2. rewrite Et in E2. injection E2 as E2 _ _. unfold cell_of in E1. injection E1 as _ E1.
  split; [|exists ty; auto]. unfold cell_type, type_name. rewrite E2. cbn [rbind].
  rewrite E1. destruct (kind_type ty _ k K) as (s & -> & M). cbn [rbind]. unfold np_dtype. now rewrite M.
Qed.
Lemma described_width p : described_ok p -> Z.of_nat (t_size (type_of p)) = cell_width (o_row (fst p)) /\ o_off (fst p) = fst (snd (fst (snd p))) /\
  cell_width (o_row (fst p)) = snd (snd (fst (snd p))) /\ 0 < cell_width (o_row (fst p)).
Proof.
  destruct p as [o [[c [off w]] k]]. unfold type_of, width_of, described_ok, kind_of_column. cbn [fst snd].
  intros (E1 & _ & _ & (ty & Et & K & _) & _). unfold cell_of in E1. injection E1 as -> ->. rewrite kind_size. apply kind_pos in K. lia.
Qed.
Definition converted_ok (file_rows : list (list ascii)) (p : described) (col : framecol) : Prop :=
  k_name col = r_name (o_row (fst p)) /\
  Forall2 (fun row v => cell_value from_vax32 cp500 (snd (snd p)) (width_of p) (cell_in row (snd (fst (snd p)))) v) file_rows (k_values col) /\
  match snd (snd p) with Number _ f => k_type col = CT (number_type f (width_of p)) | _ => True end.
Lemma F2_map_l {A B C} (R : B -> C -> Prop) (f : A -> B) l l' : Forall2 R (map f l) l' <-> Forall2 (fun x y => R (f x) y) l l'.
Proof.
  split; revert l'; induction l as [|x l IH]; intros l' H; inversion H; subst; constructor; auto.
Qed.
Lemma convert_described rows L pre post p : described_ok p -> Forall (fun r => length r = L) rows ->
  0 <= fst (snd (fst (snd p))) -> fst (snd (fst (snd p))) + snd (snd (fst (snd p))) <= Z.of_nat L ->
  (snd (snd p) = IbmShort -> rows <> []) ->
  exists col, (do ty <- type_name (o_row (fst p));
       do c <- convert_column from_vax32 cp500 ty (r_bytes (o_row (fst p))) (type_of p)
                 (field_bytes (pre ++ concat rows ++ post) (length pre) (Z.of_nat L) (length rows) (fst p, type_of p));
       Ok (mkFC (r_name (o_row (fst p))) (fst c) (snd c))) = Ok col /\ converted_ok rows p col.
Proof.
  intros D HL O1 O2 Hne. destruct (described_type p D) as [_ (ty & Er & Ec)]. destruct (described_width p D) as (W1 & W2 & W3 & W4).
  unfold type_name. rewrite Er. cbn [rbind].
  assert (EF : field_bytes (pre ++ concat rows ++ post) (length pre) (Z.of_nat L) (length rows) (fst p, type_of p) = map (fun row => cell_in row (snd (fst (snd p)))) rows).
  { unfold field_bytes. apply map_seq_nth. intros i row Hi. unfold cell_bytes. cbn [fst snd]. rewrite W1, W2, W3. unfold cell_in.
    replace (Z.to_nat (Z.of_nat (length pre) + Z.of_nat i * Z.of_nat L + fst (snd (fst (snd p)))))
      with (length pre + i * L + Z.to_nat (fst (snd (fst (snd p)))))%nat by nia.
    apply (concat_at rows L HL i row Hi). lia. }
  rewrite EF. destruct p as [o [[c [off w]] k]]. unfold described_ok in D. cbn [fst snd] in *. destruct D as (E1 & E2 & E3 & (ty' & Et & K & _ & Hi) & Hb).
  cbn [fst snd] in Et, K, Hi, Hb. rewrite Ec in Et. injection Et as <-.
  destruct (convert_ok from_vax32 cp500 ty (Z.to_nat w) k (r_bytes (o_row o)) (map (fun row => cell_in row (off, w)) rows) K) as (ct & vs & Ev & Fv & Tv).
  - intros Ik. rewrite E3, <- (Hb (Hi Ik)). lia.
  - intros Ik E. destruct rows; [now apply Hne|discriminate E].
  - apply Forall_map. rewrite Forall_forall in HL |- *. intros row Hrow. specialize (HL row Hrow). unfold cell_in. cbn [fst snd].
    rewrite firstn_length, skipn_length. lia.
  - change (type_of (o, (c, (off, w), k))) with (t_kind_of k (Z.to_nat w)). rewrite Ev. cbn [rbind fst snd]. eexists. split; [reflexivity|].
    split; [reflexivity|]. unfold width_of. cbn [fst snd k_values k_type]. split; [|exact Tv]. exact (proj1 (F2_map_l _ _ _ _) Fv).
Qed.
End Foreign.
