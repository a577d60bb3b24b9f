(** C86: binary ARRAYs whose elements are made of several numbers. *)
From Coq Require Import Lia ZArith.
From Verif.Base Require Import Py PyFacts Val Numpy Float.
From Verif.Model Require Import Files Types Scaling Pds4Types Pds4Values Table Array Pds4Frame TableValues ArrayRecords.
From Verif.Proofs Require Import Pds4Values Array Table ArrayRecords.
From Verif.Proofs Require Import Pds4Frame.
From Verif.Proofs Require TableLabel.
From Verif.Spec Require Import Types Pds4Values Image Array Table ArrayRecords.
From Verif.Properties Require Bits.
Open Scope Z_scope.

(** What is needed of a file: it holds all the elements. *)
Definition holds_all (file : list ascii) (start : nat) (cols : list column) (sh : list nat) : Prop :=
  Z.of_nat start + Z.of_nat (prod sh) * total cols <= Z.of_nat (length file).

Lemma F2_at {A B} (P : A -> B -> Prop) l l' i x : Forall2 P l l' -> nth_error l i = Some x -> exists y, nth_error l' i = Some y /\ P x y.
Proof. intros F. revert i. induction F as [|a b l l' H F IH]; intros [|i] E; try discriminate; cbn [nth_error] in *; [injection E as <-; eauto|now apply IH]. Qed.
Lemma combine_at {A B} (l : list A) (l' : list B) i x y : nth_error l i = Some x -> nth_error l' i = Some y -> nth_error (combine l l') i = Some (x, y).
Proof. revert l' i. induction l as [|a l IH]; intros [|b l'] [|i] E1 E2; try discriminate; cbn [nth_error combine] in *; [congruence|now apply IH]. Qed.
Lemma number_type c o f w : number_part c o f w -> forall o' f' w', number_part c o' f' w' -> w' = w /\ t_of o' f' w' = t_of o f w.
Proof.
  intros (_ & B & (ty & Et & T) & _) o' f' w' (_ & B' & (ty' & Et' & T') & _). assert (w' = w) as -> by lia. split; [reflexivity|]. assert (ty' = ty) as -> by congruence.
  destruct (pds3_known _ _ _ _ T) as (s & E & M). destruct (pds3_known _ _ _ _ T') as (s' & E' & M'). congruence.
Qed.
Lemma total_take cols i c : nth_error cols i = Some c -> Forall (fun c => 0 <= c_bytes c) cols -> total (firstn i cols) + c_bytes c <= total cols /\ 0 <= total (firstn i cols).
Proof.
  unfold total. revert i. induction cols as [|c0 cols IH]; intros [|i] E F; try discriminate; inversion F as [|? ? Hc Hr]; subst; cbn [nth_error firstn map fold_right] in *.
  - injection E as ->. assert (0 <= fold_right Z.add 0 (map c_bytes cols)); [|lia]. clear - Hr. induction Hr; cbn [map fold_right]; lia.
  - destruct (IH i E Hr). lia.
Qed.

(** Every element has the parts of the label, in its order, each with the value of the bytes
    that follow those of the part before it. *)
Theorem C86_packed load bits fuel in_memory file m name start cols sh :
  (3 <= fuel)%nat -> name <> $"CONTAINER" -> says_record_array m cols sh -> holds_all file start cols sh ->
  exists a, read_record_array load bits fuel in_memory file m name start = Ok a /\ shape a = sh /\
  forall idx, valid sh idx -> map fst (at_ a idx) = map c_name cols /\
    forall i c o f w, nth_error cols i = Some c -> number_part c o f w ->
      exists x, nth_error (at_ a idx) i = Some (c_name c, x) /\
        cell_holds o f w (part_bytes file start (total cols) (lin sh idx) (total (firstn i cols)) w) x.
Proof.
  intros Hf Hn Hs L. destruct (read_ok load bits fuel in_memory file m name start cols sh Hf Hn Hs L) as (types & a & F & E & Sa & Ha). exists a. split; [exact E|]. split; [exact Sa|].
  intros idx V. destruct (Ha idx V) as [LT ->]. split.
  { rewrite record_names. clear - F. induction F as [|c t cols types _ F IH]; [reflexivity|]. cbn [map combine fst]. now rewrite IH. }
  intros i c o f w Hi Hp. destruct (F2_at _ _ _ _ _ F Hi) as (t & Ht & (o' & f' & w' & Hp' & ->)). destruct (number_type _ _ _ _ Hp _ _ _ Hp') as [-> ET]. rewrite ET in Ht.
  pose proof (sizes _ _ F) as SZ. pose proof (sizes_first _ _ i F) as SF. set (dt := combine (map c_name cols) types) in *.
  exists (np_cell (t_of o f w) (part_bytes file start (total cols) (lin sh idx) (total (firstn i cols)) w)).
  assert (PB : Forall (fun c => 0 <= c_bytes c) cols). { clear - F. induction F as [|c t cols types (o & f & w & (_ & B & _) & _) F IH]; constructor; [lia|exact IH]. }
  destruct (total_take _ _ _ Hi PB) as [TT T0]. pose proof Hp as (_ & B & (ty & Ety & Ty) & _). unfold holds_all in L.
  assert (ENT : nth_error dt i = Some (c_name c, t_of o f w)) by (apply combine_at; [apply map_nth_error; exact Hi|exact Ht]).
  assert (M : Z.of_nat (lin sh idx) * total cols + total cols <= Z.of_nat (prod sh) * total cols) by nia.
  split.
  - rewrite (record_nth _ _ _ _ _ ENT). cbn [t_size t_of]. do 3 f_equal. unfold part_bytes. rewrite skipn_firstn_comm, firstn_firstn, Image.skipn_skipn. f_equal; [lia|]. f_equal. lia.
  - apply (cell_ok ty); [exact Ty|]. unfold part_bytes. rewrite firstn_length, skipn_length. lia.
Qed.
Print Assumptions C86_packed.

(** So where the parts follow one another without gaps, as their START_BYTEs say, each has
    the value of the bytes where the label says that it is. *)
Lemma back_start at_ cols i c : back_to_back at_ cols -> nth_error cols i = Some c -> c_start c = at_ + total (firstn i cols).
Proof.
  unfold total. revert at_ i. induction cols as [|c0 cols IH]; intros at_ [|i] B N; try discriminate; cbn [nth_error firstn map fold_right back_to_back] in *; destruct B as [E B].
  - injection N as ->. lia.
  - rewrite (IH _ _ B N). lia.
Qed.
Theorem C86_records load bits fuel in_memory file m name start cols sh :
  (3 <= fuel)%nat -> name <> $"CONTAINER" -> says_record_array m cols sh -> back_to_back 1 cols -> holds_all file start cols sh ->
  exists a, read_record_array load bits fuel in_memory file m name start = Ok a /\ shape a = sh /\
  forall idx, valid sh idx -> map fst (at_ a idx) = map c_name cols /\
    forall i c o f w, nth_error cols i = Some c -> number_part c o f w ->
      exists x, nth_error (at_ a idx) i = Some (c_name c, x) /\
        cell_holds o f w (part_bytes file start (total cols) (lin sh idx) (c_start c - 1) w) x.
Proof.
  intros Hf Hn Hs Hb L. destruct (C86_packed load bits fuel in_memory file m name start cols sh Hf Hn Hs L) as (a & E & Sa & Ha). exists a. split; [exact E|]. split; [exact Sa|].
  intros idx V. destruct (Ha idx V) as [N H]. split; [exact N|]. intros i c o f w Hi Hp. destruct (H i c o f w Hi Hp) as (x & Ex & Hx). exists x. split; [exact Ex|].
  rewrite (back_start _ _ _ _ Hb Hi). replace (1 + total (firstn i cols) - 1) with (total (firstn i cols)) by lia. exact Hx.
Qed.
Print Assumptions C86_records.

(** Opening the file from memory (compressed files) makes no difference. *)
Theorem C86_memory load bits fuel file m name start cols sh :
  (3 <= fuel)%nat -> name <> $"CONTAINER" -> says_record_array m cols sh -> holds_all file start cols sh ->
  read_record_array load bits fuel true file m name start = read_record_array load bits fuel false file m name start.
Proof.
  intros Hf Hn Hs L. pose proof Hs as (Hb & (v & Hv & Hsh) & _ & Ne & Nd & Hc & Hp). unfold read_record_array. destruct (negb (is_binary m)); [reflexivity|].
  destruct (check_array_for_subobject m) as [sub|]; [|reflexivity]. cbn [rbind]. destruct (negb sub); [reflexivity|].
  destruct (parse_ok load bits fuel m name cols Hf Hn Hc Ne Nd Hp) as (types & -> & F). cbn [rbind]. unfold need. unfold Array.holds in Hv. rewrite Hv. cbn [rbind]. destruct (shape_sizes _ _ Hsh) as [-> NS]. cbn [rbind].
  unfold get_array_num_items. destruct sh as [|n0 sh0]; [easy|]. cbn [rbind]. pose proof (sizes _ _ F) as SZ. pose proof (total_pos _ _ F Ne) as TP. unfold holds_all in L. rewrite !rows_all by lia. reflexivity.
Qed.
Print Assumptions C86_memory.

(** *** A label: two elements, of a letter-sized and a two-byte number *)
Definition element_of (n : string) (start bytes : Z) (ty : string) : str * pv :=
  ($"ELEMENT", PMulti [($"NAME", PStr $n); ($"START_BYTE", PInt start); ($"BYTES", PInt bytes); ($"DATA_TYPE", PStr $ty)]).
Definition label_of (parts : list (str * pv)) (items : pv) : multidict :=
  [($"INTERCHANGE_FORMAT", PStr $"BINARY"); ($"AXIS_ITEMS", items); ($"COLLECTION", PMulti (($"NAME", PStr $"PAIR") :: parts))].
Definition col_of (n : string) (start bytes : Z) (ty : string) : column := mkCol $n start bytes None (Some $ty) None None.
Definition two (second : Z) : list column := [col_of "FLAG" 1 1 "UNSIGNED_INTEGER"; col_of "COUNT" second 2 "MSB_INTEGER"].
Definition two_label (second : Z) : multidict :=
  label_of [element_of "FLAG" 1 1 "UNSIGNED_INTEGER"; element_of "COUNT" second 2 "MSB_INTEGER"] (PTuple [PInt 2; PInt 1]).

Lemma flag_part s : number_part (col_of "FLAG" s 1 "UNSIGNED_INTEGER") MSB (Integer false) 1.
Proof.
  split; [reflexivity|]. split; [reflexivity|]. split; [|split; [intros rest; discriminate|discriminate]]. exists $"UNSIGNED_INTEGER". split; [reflexivity|]. apply p_integer.
  - split; [right; exists $"UNSIGNED_", []; reflexivity|]. rewrite <- contains_iff. discriminate.
  - cbn. auto.
  - split; [discriminate|]. intros (p & r & Hp & E). cbn in Hp. destruct Hp as [<-|[<-|[<-|[]]]]; discriminate.
  - split; [intros _; exists [], $"_INTEGER"; reflexivity|reflexivity].
Qed.
Lemma count_part s : number_part (col_of "COUNT" s 2 "MSB_INTEGER") MSB (Integer true) 2.
Proof.
  split; [reflexivity|]. split; [reflexivity|]. split; [|split; [intros rest; discriminate|discriminate]]. exists $"MSB_INTEGER". split; [reflexivity|]. apply p_integer.
  - split; [right; exists $"MSB_", []; reflexivity|]. rewrite <- contains_iff. discriminate.
  - cbn. auto.
  - split; [discriminate|]. intros (p & r & Hp & E). cbn in Hp. destruct Hp as [<-|[<-|[<-|[]]]]; discriminate.
  - split; [discriminate|]. intros H. apply contains_iff in H. discriminate.
Qed.
Lemma two_says second : says_record_array (two_label second) (two second) [2; 1]%nat.
Proof.
  split; [reflexivity|]. split; [eexists; split; [reflexivity|]; now apply (s_many [2; 1]%nat)|]. split; [reflexivity|]. split; [discriminate|]. split.
  { repeat constructor; cbn; intuition discriminate. }
  assert (NS : forall k, is_structure k = false -> ~ structure_pointer k) by (intros k; apply TableLabel.not_structure).
  split.
  - eapply (of_collection _ _ [_; _] _ []); [reflexivity| | | | | |].
    + repeat constructor; cbn; try (intuition discriminate); now apply NS.
    + constructor.
    + apply other_item; [cbn; intuition discriminate|now apply NS|]. apply part_item; [cbn; auto 10| |apply part_item; [cbn; auto 10| |constructor]].
      * split; [reflexivity|]. split; [cbn; auto|]. eexists. split; [reflexivity|]. repeat split; reflexivity.
      * split; [reflexivity|]. split; [cbn; auto|]. eexists. split; [reflexivity|]. repeat split; reflexivity.
    + reflexivity.
    + exists (Some $"PAIR"). reflexivity.
    + exists None. reflexivity.
  - constructor; [|constructor; [|constructor]]; [exists MSB, (Integer false), 1%nat; apply flag_part|exists MSB, (Integer true), 2%nat; apply count_part].
Qed.
Definition no_load : pv -> res (list (str * pv)) := fun _ => Err FileNotFoundError.
Definition no_bits : field -> multidict -> res field := fun _ _ => Err NotImplementedError_.
Definition bytes_of (l : list nat) : list ascii := map ascii_of_nat l.
Definition some_file : list ascii := bytes_of [99; 7; 1; 2; 200; 255; 254; 50; 60]%nat.
Example C86_meets : says_record_array (two_label 2) (two 2) [2; 1]%nat /\ back_to_back 1 (two 2) /\ holds_all some_file 1 (two 2) [2; 1]%nat /\
  exists a, read_record_array no_load no_bits 3 false some_file (two_label 2) $"ARRAY" 1 = Ok a /\
    ravel a = [[($"FLAG", CNum (EI 7)); ($"COUNT", CNum (EI 258))]; [($"FLAG", CNum (EI 200)); ($"COUNT", CNum (EI (-2)))]].
Proof.
  split; [apply two_says|]. split; [repeat split|]. split; [unfold holds_all; cbn; lia|]. eexists. split; [vm_compute; reflexivity|]. vm_compute. reflexivity.
Qed.

(** *** Files that end too early have no array. *)
Theorem C86_short load bits fuel in_memory file m name start cols sh :
  (3 <= fuel)%nat -> name <> $"CONTAINER" -> says_record_array m cols sh -> (0 < prod sh)%nat -> ~ holds_all file start cols sh ->
  read_record_array load bits fuel in_memory file m name start = Err ValueError.
Proof.
  intros Hf Hn Hs P L. pose proof Hs as (Hb & (v & Hv & Hsh) & Hbe & Ne & Nd & Hc & Hp). unfold read_record_array. unfold is_binary. unfold Array.holds in Hb. rewrite Hb, str_eqb_refl. cbn [negb].
  rewrite (one_subobject m cols Hc Ne). 2:{ unfold Table.lacks, md_get in Hbe. unfold md_has. destruct (existsb _ m) eqn:X; [|reflexivity]. apply existsb_exists in X as (kv & I & X). destruct (find _ m) eqn:Y; [discriminate|]. now rewrite (find_none _ _ Y _ I) in X. }
  cbn [rbind negb]. destruct (parse_ok load bits fuel m name cols Hf Hn Hc Ne Nd Hp) as (types & -> & F). cbn [rbind]. unfold need. unfold Array.holds in Hv. rewrite Hv. cbn [rbind]. destruct (shape_sizes _ _ Hsh) as [-> NS]. cbn [rbind].
  unfold get_array_num_items. destruct sh as [|n0 sh0]; [easy|]. set (sh := n0 :: sh0) in *. cbn [rbind]. pose proof (sizes _ _ F) as SZ. pose proof (total_pos _ _ F Ne) as TP. unfold holds_all in L.
  set (w := record_size (combine (map c_name cols) types)) in *. assert (W : (0 < w)%nat) by lia. assert (LL : (length file < start + prod sh * w)%nat) by nia.
  assert (D : ((length file - start) / w < prod sh)%nat) by (apply Nat.div_lt_upper_bound; nia).
  assert (R : forall n, n <> prod sh -> forall l : list (list (str * cell)), length l = n -> reshape sh (flat_array [] l) = Err ValueError).
  { intros n N l E. unfold reshape, size, flat_array. cbn [shape]. rewrite E. destruct (Nat.eqb_spec (prod sh) (prod [n])) as [X|]; [|reflexivity]. exfalso. apply N. rewrite X. unfold prod. cbn. lia. }
  unfold rows_in. destruct (Nat.eqb_spec w 0); [lia|]. destruct in_memory.
  - rewrite firstn_length, skipn_length. assert (M : Nat.min (prod sh * w) (length file - start) = (length file - start)%nat) by lia. rewrite M.
    destruct (Nat.eqb_spec ((length file - start) mod w) 0); [|reflexivity]. cbn [rbind]. eapply R; [|now rewrite map_length, seq_length]. lia.
  - cbn [rbind]. eapply R; [|now rewrite map_length, seq_length]. rewrite skipn_length. lia.
Qed.
Print Assumptions C86_short.
Example C86_short_meets : ~ holds_all (firstn 6 some_file) 1 (two 2) [2; 1]%nat /\
  read_record_array no_load no_bits 3 true (firstn 6 some_file) (two_label 2) $"ARRAY" 1 = Err ValueError.
Proof. split; [unfold holds_all; cbn; lia|]. vm_compute. reflexivity. Qed.

(** *** Where the label is not followed *)
(** Parts are not looked for at their START_BYTEs: with a gap before it, a part has the
    value of other bytes. *)
Theorem C86_gap_refuted :
  ~ (forall load bits fuel in_memory file m name start cols sh a,
      (3 <= fuel)%nat -> name <> $"CONTAINER" -> says_record_array m cols sh ->
      (forall c, In c cols -> Z.of_nat start + c_start c - 1 + c_bytes c <= Z.of_nat (length file)) ->
      read_record_array load bits fuel in_memory file m name start = Ok a ->
      forall i c o f w idx, nth_error cols i = Some c -> number_part c o f w -> valid sh idx -> lin sh idx = 0%nat ->
      exists x, nth_error (at_ a idx) i = Some (c_name c, x) /\ cell_holds o f w (part_bytes file start (total cols) 0 (c_start c - 1) w) x).
Proof.
  intros H. destruct (read_record_array no_load no_bits 3 false some_file (two_label 4) $"ARRAY" 1) as [a|e] eqn:E; [|vm_compute in E; discriminate].
  assert (X : nth_error (at_ a [0; 0]%nat) 1 = Some ($"COUNT", CNum (EI 258))). { vm_compute in E. injection E as <-. vm_compute. reflexivity. }
  destruct (H no_load no_bits 3%nat false some_file (two_label 4) $"ARRAY" 1%nat (two 4) [2; 1]%nat a) with (i := 1%nat) (c := col_of "COUNT" 4 2 "MSB_INTEGER") (o := MSB) (f := Integer true) (w := 2%nat) (idx := [0; 0]%nat) as (x & Ex & Hx).
  - lia.
  - discriminate.
  - apply two_says.
  - intros c [<-|[<-|[]]]; cbn; lia.
  - exact E.
  - reflexivity.
  - apply count_part.
  - repeat constructor.
  - reflexivity.
  - rewrite X in Ex. injection Ex as <-. destruct Hx as (p & Ep & (z & Ez & _ & Hw)). injection Ep as <-. injection Ez as <-.
    destruct Hw as [_ Hw]. specialize (Hw 1%nat ltac:(lia)). vm_compute in Hw. discriminate.
Qed.
Print Assumptions C86_gap_refuted.
(** An ARRAY of single numbers within the element counts as one of them, whatever its
    AXIS_ITEMS: here three bytes are described, and one is read. *)
Definition inner_array (items : Z) : str * pv :=
  ($"ARRAY", PMulti [($"NAME", PStr $"RGB"); ($"START_BYTE", PInt 1); ($"BYTES", PInt 1); ($"DATA_TYPE", PStr $"UNSIGNED_INTEGER"); ($"AXIS_ITEMS", PInt items)]).
Theorem C86_nested_array_refuted : exists m file inner,
  m = label_of [inner_array inner] (PInt 2) /\ 1 < inner /\ Z.of_nat (length file) = 2 * inner /\
  exists a, read_record_array no_load no_bits 3 false file m $"ARRAY" 0 = Ok a /\
    ravel a = map (fun b => [($"RGB", CNum (EI (Z.of_nat (nat_of_ascii b))))]) (firstn 2 file).
Proof.
  exists (label_of [inner_array 3] (PInt 2)), (bytes_of [1; 2; 3; 4; 5; 6]%nat), 3. split; [reflexivity|]. split; [lia|]. split; [reflexivity|].
  eexists. split; [vm_compute; reflexivity|]. vm_compute. reflexivity.
Qed.
Print Assumptions C86_nested_array_refuted.
(** An ARRAY of composite elements within the element cannot be read: KeyError, although
    the type of each of its parts is known. *)
Theorem C86_nested_records_refuted : exists m inner,
  inner = ($"ARRAY", PMulti [($"NAME", PStr $"INNER"); ($"START_BYTE", PInt 1); ($"BYTES", PInt 3); ($"AXIS_ITEMS", PInt 2);
    ($"COLLECTION", PMulti (($"NAME", PStr $"INSIDE") :: ($"START_BYTE", PInt 1) :: [element_of "FLAG" 1 1 "UNSIGNED_INTEGER"; element_of "COUNT" 2 2 "MSB_INTEGER"]))]) /\
  m = label_of [($"START_BYTE", PInt 1); inner] (PInt 1) /\
  (exists fields, read_format_block no_load no_bits 6 m $"ARRAY" = Ok (fields, true) /\ map name_of fields = [$"PLACEHOLDER_PAIR"; $"PLACEHOLDER_INNER"; $"FLAG"; $"COUNT"]) /\
  read_record_array no_load no_bits 6 false (bytes_of [1; 2; 3; 4; 5; 6]%nat) m $"ARRAY" 0 = Err KeyError.
Proof. eexists. eexists. split; [reflexivity|]. split; [reflexivity|]. split; [eexists; split; [vm_compute; reflexivity|]; reflexivity|]. vm_compute. reflexivity. Qed.
Print Assumptions C86_nested_records_refuted.

(** *** Elements without NAME and START_BYTE *)
(** A single ELEMENT needs neither: its numbers then have the name of the array. *)
Definition bare_label (ty : str) (w : Z) (items : pv) : multidict :=
  [($"INTERCHANGE_FORMAT", PStr $"BINARY"); ($"AXIS_ITEMS", items); ($"ELEMENT", PMulti [($"DATA_TYPE", PStr ty); ($"BYTES", PInt w)])].
Theorem C86_bare load bits fuel in_memory file name start ty o f w items sh :
  (2 <= fuel)%nat -> name <> $"CONTAINER" -> pds3_type ty w o f -> says_shape items sh -> (start + prod sh * w <= length file)%nat ->
  exists a, read_record_array load bits fuel in_memory file (bare_label ty (Z.of_nat w) items) name start = Ok a /\ shape a = sh /\
    forall idx, valid sh idx -> exists x, at_ a idx = [(name, x)] /\ cell_holds o f w (firstn w (skipn (start + lin sh idx * w) file)) x.
Proof.
  intros Hf Hn T Hs L. destruct (pds3_known _ _ _ _ T) as (s & E & M). pose proof (pds3_pos _ _ _ _ T) as W. set (t := t_of o f w) in *.
  assert (P : parse_records load bits fuel (bare_label ty (Z.of_nat w) items) name = Ok [(name, t)]).
  { destruct fuel as [|[|fuel]]; [lia|lia|]. unfold parse_records.
    assert (F : read_format_block load bits (S (S fuel)) (bare_label ty (Z.of_nat w) items) name =
      Ok ([[($"DATA_TYPE", PStr ty); ($"BYTES", PInt (Z.of_nat w)); ($"BLOCK_NAME", PNone); ($"BLOCK_REPETITIONS", PInt 1); ($"BLOCK_BYTES", PNone)]], false)).
    { cbn [read_format_block]. rewrite (proj2 (str_eqb_neq name _) Hn). reflexivity. }
    rewrite F. cbn [rbind fst]. set (g := [($"DATA_TYPE", PStr ty); ($"BYTES", PInt (Z.of_nat w)); ($"BLOCK_NAME", PNone); ($"BLOCK_REPETITIONS", PInt 1); ($"BLOCK_BYTES", PNone)]).
    assert (NF : name_fields name [g] = [dict_set (dict_set g $"NAME" (PStr name)) $"NAME" (PStr name)]).
    { unfold name_fields. change (existsb (fun f => dict_has f $"NAME") [g]) with false. cbv iota. cbn [map]. unfold reindexed. cbn [map]. rewrite reindex_nodup by (repeat constructor; intros []). reflexivity. }
    rewrite NF. cbn [rmap rbind]. set (g2 := dict_set (dict_set g $"NAME" (PStr name)) $"NAME" (PStr name)).
    assert (AR : array_row g2 = Ok (mkRow name None 1 (Z.of_nat w) None None None 1 None (Some (PStr ty)) None None)) by reflexivity.
    rewrite AR. cbn [rbind]. change (need_column $"DATA_TYPE" [g2]) with (Ok tt). change (need_column $"BYTES" [g2]) with (Ok tt). cbn [rbind].
    cbn [rmap]. unfold cell_type at 1, type_name, cell_width. cbn [r_type r_item_bytes r_bytes rbind]. rewrite Nat2Z.id, E. cbn [rbind]. unfold np_dtype. rewrite M. cbn [rbind].
    rewrite (nested_same _ None) by (repeat constructor). assert (HD : has_dup [name] = false) by reflexivity.
    exact (f_equal (fun b : bool => if b then Err ValueError else Ok [(name, t)]) HD). }
  destruct (reshape_flat [] (map (fun k => record_of [(name, t)] (firstn w (skipn (start + k * w) file))) (seq 0 (prod sh))) sh) as (a & Ea & Sa & Ha); [now rewrite map_length, seq_length|].
  exists a. assert (R : read_record_array load bits fuel in_memory file (bare_label ty (Z.of_nat w) items) name start = Ok a).
  { unfold read_record_array. change (is_binary (bare_label ty (Z.of_nat w) items)) with true. cbn [negb]. change (check_array_for_subobject (bare_label ty (Z.of_nat w) items)) with (Ok true). cbn [rbind negb].
    rewrite P. cbn [rbind]. change (need (bare_label ty (Z.of_nat w) items) $"AXIS_ITEMS") with (Ok items). cbn [rbind]. destruct (shape_sizes _ _ Hs) as [-> NS]. cbn [rbind]. unfold get_array_num_items. destruct sh as [|n0 sh0]; [easy|].
    cbn [rbind]. assert (RS : record_size [(name, t)] = w) by (unfold record_size, t; cbn; lia). rewrite RS, rows_all by assumption. exact Ea. }
  split; [exact R|]. split; [exact Sa|]. intros idx V. pose proof (lin_lt _ _ V) as LT. rewrite (Ha idx V).
  rewrite (nth_indep _ [] (record_of [(name, t)] (firstn w (skipn (start + 0 * w) file)))) by (rewrite map_length, seq_length; exact LT).
  rewrite (map_nth (fun k => record_of [(name, t)] (firstn w (skipn (start + k * w) file)))), seq_nth by exact LT. cbn [record_of]. eexists. split; [reflexivity|].
  cbn [t_size t t_of]. rewrite firstn_firstn, Nat.min_id. apply (cell_ok ty); [exact T|]. rewrite firstn_length, skipn_length. nia.
Qed.
Print Assumptions C86_bare.
Example C86_bare_meets : exists a, read_record_array no_load no_bits 2 true some_file (bare_label $"UNSIGNED_INTEGER" 1 (PInt 3)) $"ARRAY" 1 = Ok a /\
  ravel a = map (fun z => [($"ARRAY", CNum (EI z))]) [7; 1; 2].
Proof. eexists. split; [vm_compute; reflexivity|]. vm_compute. reflexivity. Qed.
(** Collections in a collection that are not ARRAYs are read in their order; the outer one leaves an empty part. *)
Example C86_collections_meets : exists a,
  read_record_array no_load no_bits 4 false some_file
    (label_of [($"START_BYTE", PInt 1); element_of "FLAG" 1 1 "UNSIGNED_INTEGER"; ($"COLLECTION", PMulti [($"NAME", PStr $"REST"); ($"START_BYTE", PInt 2); element_of "COUNT" 1 2 "MSB_INTEGER"])] (PInt 2)) $"ARRAY" 1 = Ok a /\
  ravel a = [[($"PLACEHOLDER_PAIR", CBytes []); ($"FLAG", CNum (EI 7)); ($"COUNT", CNum (EI 258))]; [($"PLACEHOLDER_PAIR", CBytes []); ($"FLAG", CNum (EI 200)); ($"COUNT", CNum (EI (-2)))]].
Proof. eexists. split; [vm_compute; reflexivity|]. vm_compute. reflexivity. Qed.
