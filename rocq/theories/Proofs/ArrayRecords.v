From Coq Require Import Lia ZArith.
From Verif.Base Require Import Py PyFacts Val Numpy.
From Verif.Model Require Import Files Types Scaling Pds4Types Pds4Values Table Array Pds4Frame TableValues ArrayRecords.
From Verif.Properties Require Image.
From Verif.Proofs Require Import Pds4Values Pds4Frame Array Table TableLabel TableValues.
From Verif.Spec Require Import Types Pds4Values Image Array Table ArrayRecords.
Open Scope Z_scope.

Section Fields.
Variable load : pv -> res (list (str * pv)).
Variable bits : field -> multidict -> res field.
Lemma part_columns m cols : parts says_part m cols -> parts says_column_item m cols.
Proof. induction 1 as [|k v m l H1 H2 _ IH|k v m x l Hk [_ Hs] _ IH]; [constructor|now apply other_item|now apply part_item]. Qed.
Lemma singles {X} (P : context -> column -> X -> Prop) cx cols l : Forall (fun c => c_items c = None) cols -> cols_shape P cx cols l -> Forall2 (P cx) cols l.
Proof.
  intros N (ll & -> & F). induction F as [|c l cols ll [Hl Hf] F IH]; [constructor|]. inversion N as [|? ? Nc Nr]; subst. unfold count in Hl. rewrite Nc in Hl.
  destruct l as [|x [|y l]]; try discriminate. cbn [concat app]. inversion Hf; subst. constructor; [assumption|now apply IH].
Qed.
Lemma block_ok fuel name m cols n b : (2 <= fuel)%nat -> name <> $"CONTAINER" -> parts says_part m cols -> lacks m $"REPETITIONS" -> named m n -> may_hold m $"BYTES" b ->
  Forall (fun c => c_items c = None) cols ->
  exists l, read_format_block load bits fuel m name = Ok (l, false) /\ Forall2 (field_is (n, 1, b)) cols l.
Proof.
  intros Hf Hn Hp Hr Hm Hb Hi. destruct fuel as [|fuel]; [lia|]. cbn [read_format_block]. pose proof (part_columns _ _ Hp) as Hc.
  rewrite inject_plain by (eauto using parts_plain; lia). cbn [rbind].
  assert (E : block_info m = [($"BLOCK_NAME", name_value n); ($"BLOCK_REPETITIONS", PInt 1); ($"BLOCK_BYTES", int_value b)]).
  { unfold block_info, get_or. unfold lacks in Hr. unfold named in Hm. rewrite Hr, Hm. unfold may_hold, holds, lacks in Hb. destruct n, b; rewrite Hb; reflexivity. }
  rewrite E. destruct (columns_loop load bits (fun d => read_format_block load bits fuel d name) n 1 b m cols Hc) with (fs := @nil field) (nd := false) (rp := PNone) as (l & rp & -> & Hl).
  { eapply Forall_impl; [|exact Hi]. intros c Ec. unfold items_ok. now rewrite Ec. }
  cbn [rbind f_fields f_needs app]. rewrite (proj2 (str_eqb_neq name _) Hn). cbn [rbind]. exists l. split; [reflexivity|]. now apply singles.
Qed.
Lemma plain_loop rec info m st : plain m -> format_loop load bits rec info m st = Ok st.
Proof. induction 1 as [|[k v] m [H _] F IH]; [reflexivity|]. cbn [format_loop]. rewrite other_step by exact H. exact IH. Qed.
Lemma format_loop_app rec info a b st : format_loop load bits rec info (a ++ b) st = do st <- format_loop load bits rec info a st; format_loop load bits rec info b st.
Proof. revert st. induction a as [|x a IH]; intros st; [reflexivity|]. cbn [app format_loop]. destruct (format_step load bits rec info st x); [|reflexivity]. cbn [rbind]. apply IH. Qed.
Lemma plain_structure m : plain m -> Forall (fun kv => is_structure (fst kv) = false) m.
Proof. intros H. eapply Forall_impl; [|exact H]. intros kv [_ K]. now apply not_structure. Qed.
Lemma composed_fields fuel name m cols : (3 <= fuel)%nat -> name <> $"CONTAINER" -> composed m cols -> Forall (fun c => c_items c = None) cols ->
  exists l nd cx, read_format_block load bits fuel m name = Ok (l, nd) /\ Forall2 (field_is cx) cols l.
Proof.
  intros Hf Hn Hc Hi. destruct Hc as [Hp Hr [n Hm] [b Hb]|before c after -> H1 H2 Hp Hr [n Hm] [b Hb]].
  - destruct (block_ok fuel name m cols n b) as (l & E & F); try assumption; [lia|]. exists l, false, (n, 1, b). now split.
  - destruct fuel as [|fuel]; [lia|]. destruct (block_ok fuel name c cols n b) as (l & E & F); try assumption; [lia|].
    exists l, true, (n, 1, b). split; [|exact F]. cbn [read_format_block].
    assert (PS : Forall (fun kv => is_structure (fst kv) = false) (before ++ ($"COLLECTION", PMulti c) :: after)).
    { apply Forall_app. split; [now apply plain_structure|]. constructor; [reflexivity|now apply plain_structure]. }
    rewrite (inject_plain load bits _ _ PS) by lia.
    cbn [rbind]. rewrite format_loop_app, (plain_loop _ _ _ _ H1). cbn [rbind format_loop].
    assert (ST : forall info, format_step load bits (fun d => read_format_block load bits fuel d name) info (mkF [] false false PNone) ($"COLLECTION", PMulti c) = Ok (mkF l true false PNone)).
    { intros info. unfold format_step. change (str_in $"COLLECTION" structured_parameters) with true. cbn [negb]. change (str_eqb $"COLLECTION" $"ARRAY") with false. cbv iota. cbn [rbind].
      change (str_in $"COLLECTION" [$"COLUMN"; $"FIELD"; $"ELEMENT"; $"PRIMITIVE_ARRAY"]) with false. change (str_in $"COLLECTION" [$"CONTAINER"; $"COLLECTION"; $"ARRAY"]) with true. cbv iota.
      cbn [as_multi_ rbind]. rewrite E. cbn [rbind]. change (str_eqb $"COLLECTION" $"ARRAY") with false. cbv iota. unfold add_placeholder_if. cbn [f_add rbind]. unfold append_object, get_or. unfold lacks in Hr. cbn [f_reps]. rewrite Hr. cbn [rbind f_fields f_needs f_add f_reps app]. reflexivity. }
    rewrite ST. cbn [rbind]. rewrite (plain_loop _ _ _ _ H2). cbn [rbind f_fields f_needs]. rewrite (proj2 (str_eqb_neq name _) Hn). reflexivity.
Qed.
End Fields.

(** ** names *)
Lemma count_nodup l n : NoDup l -> In n l -> count_name l n = 1%nat.
Proof.
  unfold count_name. induction 1 as [|x l NI N IH]; intros I; [destruct I|]. cbn [filter]. destruct (str_eqb_spec n x) as [->|D].
  - cbn [length]. f_equal. assert (E : filter (str_eqb x) l = []); [|now rewrite E]. clear - NI. induction l as [|y l IH]; [reflexivity|]. cbn [filter].
    destruct (str_eqb_spec x y) as [->|D]; [exfalso; apply NI; now left|]. apply IH. intros I. apply NI. now right.
  - destruct I as [->|I]; [congruence|]. now apply IH.
Qed.
Lemma reindex_nodup rows : NoDup (map fst rows) -> reindex_names rows = map fst rows.
Proof.
  intros N. unfold reindex_names. assert (G : forall l seen, incl l rows -> rename_from rows seen l = map fst l).
  { induction l as [|[n s] l IH]; intros seen I; [reflexivity|]. cbn [rename_from map fst]. rewrite count_nodup; [|exact N|apply (in_map fst _ (n, s)); apply I; now left]. cbn [Nat.eqb]. f_equal. apply IH. intros x Hx. apply I. now right. }
  apply G. apply incl_refl.
Qed.
Lemma row_inv g r : row_of_field g = Ok r ->
  r_type r = dict_get g $"DATA_TYPE" /\ (exists z, dict_get g $"START_BYTE" = Some (PInt z)) /\ (r_item_bytes r = None -> exists z, dict_get g $"BYTES" = Some (PInt z)).
Proof.
  unfold row_of_field, opt_int. intros H.
  destruct (match dict_get g $"NAME" with Some (PStr s) => Ok s | _ => Err TypeError end); [|discriminate]. cbn [rbind] in H.
  destruct (match dict_get g $"BLOCK_NAME" with Some (PStr s) => Ok (Some s) | None | Some PNone => Ok None | _ => Err TypeError end); [|discriminate]. cbn [rbind] in H.
  destruct (dict_get g $"START_BYTE") as [[]|]; try discriminate. cbn [rbind] in H.
  destruct (match dict_get g $"BYTES" with None | Some PNone => Ok None | Some (PInt z) => Ok (Some z) | Some _ => Err TypeError end) as [by_|] eqn:EB; [|discriminate]. cbn [rbind] in H.
  destruct (match dict_get g $"ITEMS" with None | Some PNone => Ok None | Some (PInt z) => Ok (Some z) | Some _ => Err TypeError end) as [it|]; [|discriminate]. cbn [rbind] in H.
  destruct (match dict_get g $"ITEM_BYTES" with None | Some PNone => Ok None | Some (PInt z) => Ok (Some z) | Some _ => Err TypeError end) as [ib|]; [|discriminate]. cbn [rbind] in H.
  destruct (match dict_get g $"ITEM_OFFSET" with None | Some PNone => Ok None | Some (PInt z) => Ok (Some z) | Some _ => Err TypeError end) as [io|]; [|discriminate]. cbn [rbind] in H.
  destruct (match by_, it, ib with Some b, _, _ => Ok b | None, Some n, Some w => Ok (n * w) | _, _, _ => Err ValueError end) as [bb|] eqn:E2; [|discriminate]. cbn [rbind] in H.
  destruct (match dict_get g $"BLOCK_REPETITIONS" with None | Some PNone => Ok None | Some (PInt z) => Ok (Some z) | Some _ => Err TypeError end); [|discriminate]. cbn [rbind] in H.
  destruct (match dict_get g $"BLOCK_BYTES" with None | Some PNone => Ok None | Some (PInt z) => Ok (Some z) | Some _ => Err TypeError end); [|discriminate]. cbn [rbind] in H.
  injection H as <-. cbn [r_type r_item_bytes]. split; [reflexivity|]. split; [eauto|]. intros ->. destruct by_ as [zb|]; [|destruct it; discriminate].
  destruct (dict_get g $"BYTES") as [[]|]; try discriminate. eauto.
Qed.
Lemma array_row_eq g r : row_of_field g = Ok r -> array_row g = Ok r.
Proof. intros H. destruct (row_inv g r H) as (_ & (z & E) & _). unfold array_row. rewrite E. exact H. Qed.
Lemma named_rows cx cols fields : Forall2 (field_is cx) cols fields -> NoDup (map c_name cols) ->
  exists rows, rmap array_row (reindexed fields) = Ok rows /\ Forall2 (core_is cx) cols rows /\ map r_name rows = map c_name cols /\
    Forall2 (fun g r => row_of_field g = Ok r) (reindexed fields) rows.
Proof.
  intros F N. unfold reindexed. assert (E : map fst (map (fun f => (name_of f, start_text f)) fields) = map c_name cols).
  { rewrite map_map. cbn [fst]. clear N. induction F as [|c f cols fields [H _] F IH]; [reflexivity|]. cbn [map]. now rewrite H, IH. }
  rewrite reindex_nodup by (now rewrite E). rewrite E. clear E N.
  induction F as [|c f cols fields [_ H] F (rows & E & FR & Hn & FG)]; [exists []; repeat split; constructor|].
  destruct (H (c_name c)) as (r & Er & Hc & Hr). exists (r :: rows). cbn [map combine rmap fst snd]. rewrite (array_row_eq _ _ Er). cbn [rbind]. rewrite E. cbn [rbind].
  split; [reflexivity|]. split; [now constructor|]. split; [now rewrite Hr, Hn|]. now constructor.
Qed.

(** ** one element *)
Lemma record_nth dt : forall bs i n t, nth_error dt i = Some (n, t) ->
  nth_error (record_of dt bs) i = Some (n, np_cell t (firstn (t_size t) (skipn (record_size (firstn i dt)) bs))).
Proof.
  induction dt as [|[n0 t0] dt IH]; intros bs i n t H; [destruct i; discriminate|]. destruct i as [|i]; cbn [record_of nth_error firstn] in *.
  - injection H as -> ->. reflexivity.
  - rewrite (IH _ _ _ _ H). now rewrite Image.skipn_skipn.
Qed.
Lemma record_names dt bs : map fst (record_of dt bs) = map fst dt.
Proof. revert bs. induction dt as [|[n t] dt IH]; intros bs; [reflexivity|]. cbn [record_of map fst]. now rewrite IH. Qed.
Lemma uniq_same x l : Forall (fun y => y = x) l -> uniq l = [] \/ uniq l = [x].
Proof.
  intros F. induction F as [|y l -> F IH]; [now left|]. right. cbn [uniq]. f_equal. assert (R : opt_str_eqb x x = true) by (destruct x; [apply str_eqb_refl|reflexivity]).
  destruct IH as [-> | -> ]; [reflexivity|]. cbn [filter]. now rewrite R.
Qed.

Lemma nested_same rows x : Forall (fun r => r_block (fst r) = x) rows -> nested_arrays rows = Ok tt.
Proof.
  intros F. unfold nested_arrays. destruct (uniq_same x (map (fun r => r_block (fst r)) (filter (fun r => negb (str_eqb (r_name (fst r)) $"PLACEHOLDER_0")) rows))) as [-> | -> ]; [|reflexivity|reflexivity].
  apply Forall_forall. intros y Hy. apply in_map_iff in Hy as (r & <- & Hr). apply filter_In in Hr as [Hr _]. exact (proj1 (Forall_forall _ _) F r Hr).
Qed.
Definition part_type (c : column) (t : tmeaning) : Prop := exists o f w, number_part c o f w /\ t = t_of o f w.
Lemma number_cell cx c r : core_is cx c r -> (exists o f w, number_part c o f w) -> exists t, cell_type r = Ok t /\ part_type c t.
Proof.
  intros (_ & _ & Hb & Hi & Hk) (o & f & w & Hn). pose proof Hn as (Ni & Nb & (ty & Et & Ty) & _ & _). unfold item_fields in Hi. rewrite Ni in Hi. injection Hi as Hi _.
  unfold row_keys, col_keys in Hk. injection Hk as Hk _ _. rewrite Et in Hk. cbn [option_map] in Hk.
  destruct (pds3_known _ _ _ _ Ty) as (s & E & M). exists (t_of o f w). split; [|exists o, f, w; now split]. unfold cell_type, type_name, cell_width. rewrite Hk, Hi, Hb, Nb. cbn [rbind].
  rewrite Nat2Z.id, E. cbn [rbind]. unfold np_dtype. now rewrite M.
Qed.
Lemma number_types cx cols rows : Forall2 (core_is cx) cols rows -> Forall (fun c => exists o f w, number_part c o f w) cols ->
  exists types, rmap cell_type rows = Ok types /\ Forall2 part_type cols types.
Proof.
  induction 1 as [|c r cols rows H F IH]; intros N; [exists []; split; constructor|]. inversion N as [|? ? Nc Nr]; subst. destruct (number_cell _ _ _ H Nc) as (t & E & P).
  destruct (IH Nr) as (ts & Es & Ps). exists (t :: ts). cbn [rmap]. rewrite E. cbn [rbind]. rewrite Es. split; [reflexivity|]. now constructor.
Qed.
Lemma parse_ok load bits fuel m name cols : (3 <= fuel)%nat -> name <> $"CONTAINER" -> composed m cols -> cols <> [] -> NoDup (map c_name cols) ->
  Forall (fun c => exists o f w, number_part c o f w) cols ->
  exists types, parse_records load bits fuel m name = Ok (combine (map c_name cols) types) /\ Forall2 part_type cols types.
Proof.
  intros Hf Hn Hc He Hd Hp. destruct (composed_fields load bits fuel name m cols Hf Hn Hc) as (fields & nd & cx & E & F).
  { eapply Forall_impl; [|exact Hp]. intros c (o & f & w & H). exact (proj1 H). }
  unfold parse_records. rewrite E. cbn [rbind fst].
  assert (NF : name_fields name fields = reindexed fields).
  { unfold name_fields. destruct F as [|c f cols fields [H _] F]; [easy|]. inversion Hp as [|? ? (o & f0 & w & _ & _ & _ & _ & N) _]; subst.
    cbn [existsb]. assert (D : dict_has f $"NAME" = true); [|now rewrite D]. unfold name_of in H. unfold dict_has, md_has. unfold dict_get, md_get in H.
    destruct (find (fun kv => str_eqb (fst kv) $"NAME") f) as [kv|] eqn:Ef; [|congruence]. apply find_some in Ef. apply existsb_exists. eauto. }
  rewrite NF. destruct (named_rows cx cols fields F Hd) as (rows & Er & FR & Nr & FG). rewrite Er. cbn [rbind].
  destruct (number_types _ _ _ FR Hp) as (types & Et & FT).
  assert (NC : forall k, k = $"DATA_TYPE" \/ k = $"BYTES" -> need_column k (reindexed fields) = Ok tt).
  { intros k Hk. unfold need_column. assert (X : existsb (fun f => dict_has f k) (reindexed fields) = true); [|now rewrite X]. clear Er Et FT E NF Nr.
    set (G := reindexed fields) in *. clearbody G. destruct FG as [|g r gs rs H FG']; [inversion FR; subst; easy|]. cbn [existsb]. apply orb_true_iff. left.
    destruct (row_inv g r H) as (T & _ & B). inversion FR as [|c ? cols' ? Hcr _]; subst. inversion Hp as [|? ? (o & f0 & w & Ni & Nb & (ty & Ety & _) & _) _]; subst.
    destruct Hcr as (_ & _ & _ & Hi & Hk'). unfold item_fields in Hi. rewrite Ni in Hi. injection Hi as Hi _. unfold row_keys, col_keys in Hk'. injection Hk' as Hk' _ _. rewrite Ety in Hk'. rewrite T in Hk'.
    destruct (B Hi) as (z & Hz). unfold dict_has, md_has. destruct Hk as [-> | -> ]; [unfold dict_get, md_get in Hk'|unfold dict_get, md_get in Hz].
    - destruct (find (fun kv => str_eqb (fst kv) $"DATA_TYPE") g) as [kv|] eqn:Ef; [|discriminate]. apply find_some in Ef. apply existsb_exists. eauto.
    - destruct (find (fun kv => str_eqb (fst kv) $"BYTES") g) as [kv|] eqn:Ef; [|discriminate]. apply find_some in Ef. apply existsb_exists. eauto. }
  rewrite !NC by auto. cbn [rbind]. rewrite Et. cbn [rbind].
  rewrite (nested_same _ (fst (fst cx))).
  2:{ apply Forall_forall. intros [r a] Hr. apply in_combine_l in Hr. cbn [fst]. clear - FR Hr. induction FR as [|c r' cols rows H F IH]; [destruct Hr|]. destruct Hr as [->|Hr]; [|now apply IH]. destruct H as (H & _). now rewrite <- H. }
  cbn [rbind]. rewrite Nr, (proj2 (has_dup_iff _) Hd). exists types. now split.
Qed.

(** ** all the elements *)
Lemma sizes cols types : Forall2 part_type cols types -> Z.of_nat (record_size (combine (map c_name cols) types)) = total cols.
Proof.
  unfold record_size, total. induction 1 as [|c t cols types (o & f & w & (_ & B & _) & ->) F IH]; [reflexivity|]. cbn [map combine snd fold_right]. unfold list_sum in *. cbn [fold_right t_size t_of]. rewrite Nat2Z.inj_add, IH, B. reflexivity.
Qed.
Lemma sizes_first cols types i : Forall2 part_type cols types -> Z.of_nat (record_size (firstn i (combine (map c_name cols) types))) = total (firstn i cols).
Proof.
  intros F. rewrite combine_firstn, firstn_map. apply sizes. revert i. induction F as [|c t cols types H F IH]; intros [|i]; constructor; auto.
Qed.
Lemma total_pos cols types : Forall2 part_type cols types -> cols <> [] -> 0 < total cols.
Proof.
  intros F N. unfold total. destruct F as [|c t cols types (o & f & w & (_ & B & (ty & _ & T) & _) & _) F]; [easy|]. cbn [map fold_right]. apply pds3_pos in T.
  assert (0 <= fold_right Z.add 0 (map c_bytes cols)); [|lia]. clear - F. induction F as [|c t cols types (o & f & w & (_ & B & _) & _) F IH]; cbn [map fold_right]; lia.
Qed.
Lemma rows_all im file start n w : (0 < w)%nat -> (start + n * w <= length file)%nat -> rows_in im file start n w = Ok n.
Proof.
  intros W L. unfold rows_in. destruct (Nat.eqb_spec w 0); [lia|]. assert (LL : (n * w <= length (skipn start file))%nat) by (rewrite skipn_length; lia). destruct im.
  - rewrite firstn_length, (Nat.min_l _ _ LL), Nat.mod_mul, Nat.div_mul by lia. reflexivity.
  - f_equal. apply Nat.min_l. apply Nat.div_le_lower_bound; lia.
Qed.
Lemma has_app a b k : md_has (a ++ b) k = md_has a k || md_has b k.
Proof. apply existsb_app. Qed.
Lemma has_cons k' v m k : md_has ((k', v) :: m) k = str_eqb k' k || md_has m k.
Proof. reflexivity. Qed.
Lemma one_subobject m cols : composed m cols -> cols <> [] -> md_has m $"BIT_ELEMENT" = false -> check_array_for_subobject m = Ok true.
Proof.
  intros H N B. unfold check_array_for_subobject.
  assert (P : forall l, plain l -> forall k, In k part_keywords -> md_has l k = false).
  { intros l Hl k Hk. unfold md_has. induction Hl as [|[k' v] l [H1 _] _ IH]; [reflexivity|]. cbn [existsb fst]. rewrite IH, orb_false_r. apply str_eqb_neq. intros ->. easy. }
  destruct H as [Hp _ _ _|before c after -> H1 H2 _ _ _ _].
  - assert (K : forall k, In k part_keywords -> k <> $"ELEMENT" -> md_has m k = false).
    { intros k Hk D. clear B N. unfold md_has. induction Hp as [|k' v m l K1 _ _ IH|k' v m x l K1 [-> _] _ IH]; [reflexivity| |].
      - cbn [existsb fst]. destruct (str_eqb_spec k' k) as [->|_]; [easy|]. exact IH.
      - cbn [existsb fst]. destruct (str_eqb_spec $"ELEMENT" k) as [<-|_]; [easy|]. exact IH. }
    assert (T : md_has m $"ELEMENT" = true).
    { clear B K. unfold md_has. induction Hp as [|k' v m l K1 _ _ IH|k' v m x l K1 [-> _] _ IH]; [easy| |].
      - cbn [existsb fst]. rewrite IH by exact N. apply orb_true_r.
      - reflexivity. }
    cbn [filter]. rewrite (K $"ARRAY"), (K $"COLLECTION"), B, T by (cbn; auto; discriminate). reflexivity.
  - assert (A : forall k, In k part_keywords -> k <> $"COLLECTION" -> md_has (before ++ ($"COLLECTION", PMulti c) :: after) k = false).
    { intros k Hk D. rewrite has_app, has_cons, (P _ H1 k Hk), (P _ H2 k Hk). destruct (str_eqb_spec $"COLLECTION" k) as [<-|_]; [easy|reflexivity]. }
    assert (T : md_has (before ++ ($"COLLECTION", PMulti c) :: after) $"COLLECTION" = true).
    { rewrite has_app, has_cons. apply orb_true_r. }
    cbn [filter]. rewrite (A $"ARRAY"), (A $"ELEMENT"), B, T by (cbn; auto 10; discriminate). reflexivity.
Qed.
Lemma read_ok load bits fuel im file m name start cols sh : (3 <= fuel)%nat -> name <> $"CONTAINER" -> says_record_array m cols sh ->
  Z.of_nat start + Z.of_nat (prod sh) * total cols <= Z.of_nat (length file) ->
  exists types a, Forall2 part_type cols types /\ read_record_array load bits fuel im file m name start = Ok a /\ shape a = sh /\
    forall idx, valid sh idx -> (lin sh idx < prod sh)%nat /\
      at_ a idx = record_of (combine (map c_name cols) types) (firstn (record_size (combine (map c_name cols) types)) (skipn (start + lin sh idx * record_size (combine (map c_name cols) types)) file)).
Proof.
  intros Hf Hn (Hb & (v & Hv & Hs) & Hbe & Ne & Nd & Hc & Hp) L. destruct (parse_ok load bits fuel m name cols Hf Hn Hc Ne Nd Hp) as (types & E & F). exists types.
  set (dt := combine (map c_name cols) types) in *. pose proof (sizes _ _ F) as HS. fold dt in HS. pose proof (total_pos _ _ F Ne) as HT. set (w := record_size dt) in *.
  destruct (reshape_flat [] (map (fun k => record_of dt (firstn w (skipn (start + k * w) file))) (seq 0 (prod sh))) sh) as (a & Ea & Sa & Ha); [now rewrite map_length, seq_length|].
  exists a. split; [exact F|]. unfold read_record_array. unfold is_binary. unfold Array.holds in Hb. rewrite Hb, str_eqb_refl. cbn [negb].
  rewrite (one_subobject m cols Hc Ne). 2:{ unfold lacks, md_get in Hbe. unfold md_has. destruct (existsb _ m) eqn:X; [|reflexivity]. apply existsb_exists in X as (kv & I & X). destruct (find _ m) eqn:Y; [discriminate|]. now rewrite (find_none _ _ Y _ I) in X. }
  cbn [rbind negb]. rewrite E. cbn [rbind]. unfold need. unfold Array.holds in Hv. rewrite Hv. cbn [rbind]. destruct (shape_sizes _ _ Hs) as [-> NS]. cbn [rbind]. unfold get_array_num_items.
  destruct sh as [|n0 sh0]; [easy|]. cbn [rbind]. fold dt. fold w. rewrite (rows_all im file start (prod (n0 :: sh0)) w) by lia. cbn [rbind]. split; [exact Ea|]. split; [exact Sa|].
  intros idx V. pose proof (lin_lt _ _ V) as LT. split; [exact LT|]. rewrite (Ha idx V). 
  rewrite (nth_indep _ [] (record_of dt (firstn w (skipn (start + 0 * w) file)))) by (rewrite map_length, seq_length; exact (lin_lt _ _ V)).
  rewrite (map_nth (fun k => record_of dt (firstn w (skipn (start + k * w) file)))), seq_nth by exact (lin_lt _ _ V). reflexivity.
Qed.
