(** C72: the elements of PDS3 arrays. *)
From Coq Require Import QArith Lia ZArith.
From Verif.Base Require Import Py PyFacts Val Numpy Float.
From Verif.Model Require Import Types Scaling Pds4Types Pds4Values Table Array.
From Verif.Spec Require Import Types Scaling Pvl Pds4Values Image Array.
From Verif.Proofs Require Import Scaling Pds4Values Array.
From Verif.Proofs Require Xml TableLabel.
From Verif.Properties Require Types Image.
Open Scope Z_scope.

(** ** C72: binary arrays *)
Lemma lacks_has m k : Array.lacks m k -> md_has m k = false.
Proof. exact (TableLabel.lacks_has m k). Qed.
Lemma array_type m name w sh : says_array m name w sh -> parse_array_structure m = do dt <- sample_types name w true; Ok (Some dt).
Proof.
  intros (I & D & B & _ & L1 & L2 & L3 & L4). unfold parse_array_structure, is_binary. unfold Array.holds in I, D. rewrite I, str_eqb_refl. cbn [negb].
  unfold check_array_for_subobject. cbn [filter]. rewrite !lacks_has by assumption. cbn [length rbind].
  unfold need_str. rewrite D. cbn [rbind]. rewrite (need_nat_of _ _ _ B). reflexivity.
Qed.
Theorem C72_binary repr m name w o f sh file text start :
  says_array m name w sh -> pds3_type name w o f -> (start + prod sh * w <= length file)%nat ->
  exists a, read_array repr false file text m start = Ok a /\ shape a = sh /\
    forall idx, valid sh idx -> cell_holds o f w (item file start w (lin sh idx)) (at_ a idx).
Proof.
  intros S T L. destruct (pds3_known _ _ _ _ T) as (dt & E & M). pose proof (pds3_pos _ _ _ _ T) as W. unfold read_array. rewrite (array_type _ _ _ _ S), E.
  cbn [rbind]. destruct S as (_ & _ & _ & (v & A & Sh) & _). unfold need. unfold Array.holds in A. rewrite A. cbn [rbind]. destruct (shape_sizes _ _ Sh) as [-> N].
  cbn [rbind]. unfold get_array_num_items. destruct sh as [|n sh']; [easy|]. set (sh := n :: sh') in *. cbn [rbind]. unfold fromfile, np_dtype. rewrite M. cbn [rbind t_of t_size].
  destruct (Nat.eqb_spec w 0); [lia|]. cbn [rbind].
  destruct (firstn_chunks w (skipn start file) (prod sh)) as [Hl Hn]; [rewrite skipn_length; lia|exact W|].
  set (cs := firstn (prod sh) (chunks w (skipn start file))) in *.
  destruct (reshape_flat (CBytes []) (map (np_cell (t_of o f w)) cs) sh) as (a & Ea & Es & Ha); [now rewrite map_length|].
  exists a. split; [exact Ea|]. split; [exact Es|]. intros idx V. rewrite Ha by exact V. apply lin_lt in V.
  rewrite nth_indep with (d' := np_cell (t_of o f w) []) by (now rewrite map_length, Hl). rewrite map_nth, Hn by exact V.
  assert (I : firstn w (skipn (lin sh idx * w) (skipn start file)) = item file start w (lin sh idx)).
  { unfold item. now rewrite Image.skipn_skipn. }
  rewrite I. apply (cell_ok name); [exact T|]. unfold item. rewrite firstn_length, skipn_length. nia.
Qed.
Print Assumptions C72_binary.
(** two rows of three little-endian 16-bit integers, after one byte of something else *)
Definition ex_array : multidict :=
  [($"AXES", PInt 2); ($"AXIS_ITEMS", PTuple [PInt 2; PInt 3]); ($"INTERCHANGE_FORMAT", PStr $"BINARY");
   ($"DATA_TYPE", PStr $"LSB INTEGER"); ($"BYTES", PInt 2)].
Example C72_meets : says_array ex_array $"LSB INTEGER" 2 [2; 3]%nat /\ pds3_type $"LSB INTEGER" 2 LSB (Integer true) /\
  let file := map (fun n => ascii_of_nat n) [9; 0; 1; 255; 254; 0; 3; 1; 0; 0; 5; 128; 0]%nat in
  (1 + prod [2; 3] * 2 <= length file)%nat /\
  exists a, read_array (fun _ => []) false file [] ex_array 1 = Ok a /\ ravel a = map (fun z => CNum (EI z)) [256; -257; 768; 1; 1280; 128].
Proof.
  split; [|split; [|split]].
  - repeat (split; [reflexivity|]). split; [|repeat split; reflexivity]. eexists. split; [reflexivity|]. now apply (s_many [2; 3]%nat).
  - apply p_integer.
    + split; [right; exists $"LSB_", []; reflexivity|]. rewrite <- contains_iff. discriminate.
    + cbn. auto.
    + split; [intros _|reflexivity]. exists $"LSB", $"_INTEGER". split; [cbn; auto|reflexivity].
    + split; [discriminate|]. intros H. apply contains_iff in H. discriminate.
  - cbn. lia.
  - eexists. split; vm_compute; reflexivity.
Qed.
(** A file that ends before the last element has no array. *)
Theorem C72_short repr m name w o f sh file text start :
  says_array m name w sh -> pds3_type name w o f -> (0 < prod sh)%nat -> (length file < start + prod sh * w)%nat ->
  read_array repr false file text m start = Err ValueError.
Proof.
  intros S T P L. destruct (pds3_known _ _ _ _ T) as (dt & E & M). pose proof (pds3_pos _ _ _ _ T) as W. unfold read_array. rewrite (array_type _ _ _ _ S), E.
  cbn [rbind]. destruct S as (_ & _ & _ & (v & A & Sh) & _). unfold need. unfold Array.holds in A. rewrite A. cbn [rbind]. destruct (shape_sizes _ _ Sh) as [-> N].
  cbn [rbind]. unfold get_array_num_items. destruct sh as [|n sh']; [easy|]. set (sh := n :: sh') in *. cbn [rbind]. unfold fromfile, np_dtype. rewrite M. cbn [rbind t_of t_size].
  destruct (Nat.eqb_spec w 0); [lia|]. cbn [rbind]. unfold reshape, size, flat_array. cbn [shape].
  rewrite map_length, firstn_length, chunks_length, skipn_length.
  assert (D : ((length file - start) / w < prod sh)%nat) by (apply Nat.div_lt_upper_bound; lia).
  destruct (Nat.eqb_spec (prod sh) (prod [Nat.min (prod sh) ((length file - start) / w)])); [|reflexivity].
  cbn [prod fold_right] in e. fold (prod sh) in e. lia.
Qed.
Print Assumptions C72_short.
(** Types without a meaning in binary are refused. *)
Theorem C72_unknown repr m name w sh mem file text start :
  says_array m name w sh -> ~ integer_name (underscored name) -> ~ In (underscored name) known_names ->
  exists e, read_array repr mem file text m start = Err e.
Proof.
  intros S N K. unfold read_array. rewrite (array_type _ _ _ _ S). destruct (Types.C17_unknown name w true N K) as [e E]. rewrite E. exists e. reflexivity.
Qed.
Print Assumptions C72_unknown.

(** ** C72: arrays in text *)
Lemma not_binary m : md_get m $"INTERCHANGE_FORMAT" <> Some (PStr $"BINARY") -> is_binary m = false.
Proof.
  intros H. unfold is_binary. destruct (md_get m $"INTERCHANGE_FORMAT") as [v|]; [|reflexivity]. destruct v; try reflexivity.
  apply str_eqb_neq. congruence.
Qed.
Lemma text_array repr mem file text m start sh : says_text_array m sh -> Array.lacks m $"DATA_TYPE" ->
  read_array repr mem file text m start =
    do l <- rmap float_bytes (numbers_in text); reshape sh (flat_array (CBytes []) (map (fun x => CNum (EF x)) l)).
Proof.
  intros (B & v & A & Sh) L. unfold read_array, parse_array_structure. rewrite (not_binary _ B). cbn [negb rbind].
  destruct (rmap float_bytes (numbers_in text)) as [l|]; [|reflexivity]. cbn [rbind]. unfold need. unfold Array.holds in A. rewrite A. cbn [rbind].
  destruct (shape_sizes _ _ Sh) as [-> _]. cbn [rbind]. rewrite (lacks_has _ _ L). now destruct (reshape sh _).
Qed.
Theorem C72_text repr mem m sh file text start qs :
  says_text_array m sh -> Array.lacks m $"DATA_TYPE" -> number_text text qs -> length qs = prod sh ->
  exists a, read_array repr mem file text m start = Ok a /\ shape a = sh /\
    forall idx, valid sh idx -> exists x, at_ a idx = CNum (EF x) /\ double_for (nth (lin sh idx) qs 0%Q) x.
Proof.
  intros S L T N. rewrite (text_array _ _ _ _ _ _ _ S L). unfold numbers_in. destruct (findall_numbers _ _ T (length text) ltac:(lia)) as (vs & -> & F). cbn [rbind].
  assert (Lv : length vs = prod sh). { rewrite <- N. clear - F. induction F; cbn; congruence. }
  destruct (reshape_flat (CBytes []) (map (fun x => CNum (EF x)) vs) sh) as (a & Ea & Es & Ha); [now rewrite map_length|].
  exists a. split; [exact Ea|]. split; [exact Es|]. intros idx V. rewrite Ha by exact V. apply lin_lt in V. exists (nth (lin sh idx) vs NaN). split.
  - rewrite nth_indep with (d' := CNum (EF NaN)) by (rewrite map_length; lia). now rewrite (map_nth (fun x => CNum (EF x))).
  - rewrite <- N in V. clear - F V. revert V. generalize (lin sh idx). induction F as [|q v qs vs H _ IH]; intros k V; [cbn in V; lia|]. destruct k; [exact H|]. apply IH. cbn in V. lia.
Qed.
Print Assumptions C72_text.
(** Another number of numbers than the label says is an error. *)
Theorem C72_text_count repr mem m sh file text start qs :
  says_text_array m sh -> Array.lacks m $"DATA_TYPE" -> number_text text qs -> length qs <> prod sh ->
  read_array repr mem file text m start = Err ValueError.
Proof.
  intros S L T N. rewrite (text_array _ _ _ _ _ _ _ S L). unfold numbers_in. destruct (findall_numbers _ _ T (length text) ltac:(lia)) as (vs & -> & F). cbn [rbind].
  assert (Lv : length vs = length qs) by (clear - F; induction F; cbn; congruence).
  unfold reshape, size, flat_array. cbn [shape]. destruct (Nat.eqb_spec (prod sh) (prod [length (map (fun x => CNum (EF x)) vs)])); [|reflexivity].
  rewrite map_length in e. cbn [prod fold_right] in e. fold (prod sh) in e. lia.
Qed.
Print Assumptions C72_text_count.
(** Whatever the text: if there is an array, its elements are numbers. *)
Theorem C72_numbers repr mem m sh file text start :
  says_text_array m sh -> Array.lacks m $"DATA_TYPE" ->
  read_array repr mem file text m start = Err ValueError \/
  exists a, read_array repr mem file text m start = Ok a /\ shape a = sh /\ forall idx, valid sh idx -> exists x, at_ a idx = CNum (EF x).
Proof.
  intros S L. rewrite (text_array _ _ _ _ _ _ _ S L). unfold numbers_in. destruct (findall_floats (length text) text) as (vs & ->). cbn [rbind].
  destruct (Nat.eqb_spec (prod sh) (length vs)) as [E|E].
  - right. destruct (reshape_flat (CBytes []) (map (fun x => CNum (EF x)) vs) sh) as (a & Ea & Es & Ha); [now rewrite map_length|].
    exists a. split; [exact Ea|]. split; [exact Es|]. intros idx V. rewrite Ha by exact V. apply lin_lt in V. exists (nth (lin sh idx) vs NaN).
    rewrite nth_indep with (d' := CNum (EF NaN)) by (rewrite map_length; lia). now rewrite (map_nth (fun x => CNum (EF x))).
  - left. unfold reshape, size, flat_array. cbn [shape]. destruct (Nat.eqb_spec (prod sh) (prod [length (map (fun x => CNum (EF x)) vs)])); [|reflexivity].
    rewrite map_length in e. cbn [prod fold_right] in e. fold (prod sh) in e. lia.
Qed.
Print Assumptions C72_numbers.
Definition ex_text_array : multidict := [($"AXES", PInt 1); ($"AXIS_ITEMS", PInt 3); ($"NAME", PStr $"SPECTRUM")].
Lemma plain_ex neg sg ip point fp n : sign_text neg sg -> ip <> [] -> (point = $"." \/ (point = [] /\ fp = [])) -> numeral_value 10 (ip ++ fp) = Some n ->
  plain_number (sg ++ ip ++ point ++ fp) ((if neg then -1 else 1) * inject_Z (Z.of_N n) * Qpower 10 (- Z.of_nat (length fp)))%Q.
Proof. intros. eapply p_number; eauto. reflexivity. Qed.
Lemma is_gap c : is_digit c || is_lower c || is_upper c || is_sign c || Ascii.eqb c "." = false -> gap_char c.
Proof.
  intros H. rewrite !orb_false_iff in H. destruct H as ((((D & L) & U) & S) & P). split; [rewrite Pds4Fields.decimal_digit_iff; congruence|]. split.
  - assert (X : forall c, is_lower c = false -> is_upper c = false -> letter c -> False); [|exact (X c L U)].
    clear. intros c L U [H|H]; destruct c as [[] [] [] [] [] [] [] []]; try discriminate L; try discriminate U; cbn in H; lia.
  - intros [<-|[<-|[<-|[]]]]; discriminate.
Qed.
Ltac gaps := unfold gap; repeat (apply Forall_cons; [now apply is_gap|]); apply Forall_nil.
Example C72_text_meets : says_text_array ex_text_array [3]%nat /\ Array.lacks ex_text_array $"DATA_TYPE" /\
  number_text $"-1.25, 30 (+7.)" [-1 * inject_Z 125 * Qpower 10 (-2); 1 * inject_Z 30 * Qpower 10 0; 1 * inject_Z 7 * Qpower 10 0]%Q /\
  exists a, read_array (fun _ => []) false [] $"-1.25, 30 (+7.)" ex_text_array 0 = Ok a /\ ravel a = map (fun z => CNum (EF (fconv DF64 z))) [-5 # 4; 30; 7]%Q.
Proof.
  split; [|split; [reflexivity|split]].
  - split; [discriminate|]. eexists. split; [reflexivity|]. apply (s_one 3).
  - apply (t_number [] $"-1.25" _ $", 30 (+7.)"); [gaps|apply (plain_ex true $"-" $"1" $"." $"25" 125%N); [reflexivity|discriminate|now left|reflexivity]|now apply is_gap|].
    apply (t_number $", " $"30" _ $" (+7.)"); [gaps|apply (plain_ex false [] $"30" [] [] 30%N); [now left|discriminate|now right|reflexivity]|now apply is_gap|].
    apply (t_number $" (" $"+7." _ $")"); [gaps|apply (plain_ex false $"+" $"7" $"." [] 7%N); [now right|discriminate|now left|reflexivity]|now apply is_gap|].
    apply t_end. gaps.
  - eexists. split; [vm_compute; reflexivity|]. vm_compute. reflexivity.
Qed.

(** ** Where the label is not followed *)
(** A compressed file has no binary arrays: AttributeError. *)
Theorem C72_compressed_refuted repr m name w o f sh file text start :
  says_array m name w sh -> pds3_type name w o f -> read_array repr true file text m start = Err AttributeError.
Proof.
  intros S T. destruct (pds3_known _ _ _ _ T) as (dt & E & M). unfold read_array. rewrite (array_type _ _ _ _ S), E. cbn [rbind].
  destruct S as (_ & _ & _ & (v & A & Sh) & _). unfold need. unfold Array.holds in A. rewrite A. cbn [rbind]. destruct (shape_sizes _ _ Sh) as [-> N]. cbn [rbind].
  destruct sh; [easy|]. reflexivity.
Qed.
Print Assumptions C72_compressed_refuted.
(** Elements that the label says are IBM or VAX reals are the integers of the same bytes. *)
Theorem C72_foreign_reals_refuted repr m name w sh file text start :
  says_array m name w sh -> (underscored name = $"IBM_REAL" /\ In w [4; 8]%nat \/ underscored name = $"VAX_REAL" /\ w = 4%nat) -> (start + prod sh * w <= length file)%nat ->
  exists a, read_array repr false file text m start = Ok a /\ shape a = sh /\
    forall idx, valid sh idx -> exists z, at_ a idx = CNum (EI z) /\ of_width false w z /\
      written (if str_eqb (underscored name) $"IBM_REAL" then MSB else LSB) w z (item file start w (lin sh idx)).
Proof.
  intros S T L. set (o := if str_eqb (underscored name) $"IBM_REAL" then MSB else LSB).
  assert (X : exists dt, sample_types name w true = Ok dt /\ numpy_meaning dt = Some (t_of o (Integer false) w)).
  { unfold o. destruct T as [[T W]|[T W]].
    - rewrite T. cbn [str_eqb]. destruct (Types.C17_reals name w W) as (_ & _ & H & _). exact (H T).
    - rewrite T. destruct (Types.C17_reals name w ltac:(subst; cbn; auto)) as (_ & _ & _ & H). exact (H T W). }
  destruct X as (dt & E & M). assert (W : (0 < w)%nat) by (destruct T as [[_ T]|[_ ->]]; [cbn in T|]; lia).
  unfold read_array. rewrite (array_type _ _ _ _ S), E.
  cbn [rbind]. destruct S as (_ & _ & _ & (v & A & Sh) & _). unfold need. unfold Array.holds in A. rewrite A. cbn [rbind]. destruct (shape_sizes _ _ Sh) as [-> N].
  cbn [rbind]. unfold get_array_num_items. destruct sh as [|n sh']; [easy|]. set (sh := n :: sh') in *. cbn [rbind]. unfold fromfile, np_dtype. rewrite M. cbn [rbind t_of t_size].
  destruct (Nat.eqb_spec w 0); [lia|]. cbn [rbind].
  destruct (firstn_chunks w (skipn start file) (prod sh)) as [Hl Hn]; [rewrite skipn_length; lia|exact W|].
  set (cs := firstn (prod sh) (chunks w (skipn start file))) in *.
  destruct (reshape_flat (CBytes []) (map (np_cell (t_of o (Integer false) w)) cs) sh) as (a & Ea & Es & Ha); [now rewrite map_length|].
  exists a. split; [exact Ea|]. split; [exact Es|]. intros idx V. rewrite Ha by exact V. apply lin_lt in V.
  rewrite nth_indep with (d' := np_cell (t_of o (Integer false) w) []) by (now rewrite map_length, Hl). rewrite map_nth, Hn by exact V.
  assert (I : firstn w (skipn (lin sh idx * w) (skipn start file)) = item file start w (lin sh idx)).
  { unfold item. now rewrite Image.skipn_skipn. }
  rewrite I. assert (Li : length (item file start w (lin sh idx)) = w) by (unfold item; rewrite firstn_length, skipn_length; nia).
  eexists. split; [reflexivity|]. cbn [t_of t_order t_size]. split; [now apply wrap_range|].
  destruct (wrap_congr false w (word (order_of o) (item file start w (lin sh idx)))) as [k ->]. apply written_congr. now apply word_written.
Qed.
Print Assumptions C72_foreign_reals_refuted.
(** The last axis varies fastest in the file even where the label says that the first does. *)
Theorem C72_axis_order_refuted : exists m file a,
  says_array m $"MSB_UNSIGNED_INTEGER" 1 [2; 3]%nat /\ Array.holds m $"AXIS_ORDER_TYPE" (PStr $"FIRST_INDEX_FASTEST") /\
  length file = 6%nat /\ read_array (fun _ => []) false file [] m 0 = Ok a /\
  (* element (1, 0) is the second of the file in this order *)
  ~ cell_holds MSB (Integer false) 1 (item file 0 1 1) (at_ a [1; 0]%nat).
Proof.
  exists [($"AXIS_ORDER_TYPE", PStr $"FIRST_INDEX_FASTEST"); ($"AXIS_ITEMS", PTuple [PInt 2; PInt 3]); ($"INTERCHANGE_FORMAT", PStr $"BINARY");
    ($"DATA_TYPE", PStr $"MSB_UNSIGNED_INTEGER"); ($"BYTES", PInt 1)], (map ascii_of_nat [1; 2; 3; 4; 5; 6]%nat). eexists.
  split; [repeat (split; [reflexivity|]); split; [eexists; split; [reflexivity|now apply (s_many [2; 3]%nat)]|repeat split; reflexivity]|].
  split; [reflexivity|]. split; [reflexivity|]. split; [vm_compute; reflexivity|].
  intros (p & E & v & [= ->] & _ & _ & H). vm_compute in E. injection E as <-. specialize (H 0%nat ltac:(lia)). vm_compute in H. discriminate.
Qed.
Print Assumptions C72_axis_order_refuted.
(** Exponents are numbers of their own, and a number that begins with its point loses it. *)
Theorem C72_exponent_refuted : exists text, text = $"1.5E3" /\ decimal_text text 1500 /\
  forall mem file start sh m, says_text_array m sh -> Array.lacks m $"DATA_TYPE" ->
    (sh = [1]%nat -> read_array (fun _ => []) mem file text m start = Err ValueError) /\
    (sh = [2]%nat -> exists a, read_array (fun _ => []) mem file text m start = Ok a /\ ravel a = map (fun z => CNum (EF (fconv DF64 z))) [3 # 2; 3]%Q).
Proof.
  exists $"1.5E3". split; [reflexivity|]. split.
  - apply (d_text $"1" $"5" $"." $"E3" 15%N 3); [now left|reflexivity|apply (x_some "E"%char false [] $"3" 3%N); [cbn; auto|now left|reflexivity]|reflexivity].
  - intros mem file start sh m S L. rewrite (text_array _ _ _ _ _ _ _ S L). split; intros ->; [vm_compute; reflexivity|]. eexists. split; vm_compute; reflexivity.
Qed.
Print Assumptions C72_exponent_refuted.
Theorem C72_point_refuted : exists text, text = $".5" /\ decimal_text text (1 # 2) /\
  forall mem file start m, says_text_array m [1]%nat -> Array.lacks m $"DATA_TYPE" ->
    exists a, read_array (fun _ => []) mem file text m start = Ok a /\ ravel a = [CNum (EF (fconv DF64 5))].
Proof.
  exists $".5". split; [reflexivity|]. split.
  - apply (d_text [] $"5" $"." [] 5%N 0); [now left|reflexivity|constructor|reflexivity].
  - intros mem file start m S L. rewrite (text_array _ _ _ _ _ _ _ S L). eexists. split; vm_compute; reflexivity.
Qed.
Print Assumptions C72_point_refuted.
(** Where an array in text begins in its file makes no difference: the numbers of the label
    and of everything else in the file count. *)
Theorem C72_start_refuted repr mem file text m start start' sh :
  says_text_array m sh -> read_array repr mem file text m start = read_array repr mem file text m start'.
Proof. intros (B & _). unfold read_array, parse_array_structure. rewrite (not_binary _ B). reflexivity. Qed.
Print Assumptions C72_start_refuted.
(** Numbers that the label says are ASCII_REAL or ASCII_INTEGER end up as byte strings, cut
    off at their length in the label. *)
Theorem C72_ascii_types_refuted repr mem file text m start sh name w a :
  says_text_array m sh -> Array.holds m $"DATA_TYPE" (PStr name) -> Array.holds m $"BYTES" (PInt (Z.of_nat w)) -> In (underscored name) text_names ->
  read_array repr mem file text m start = Ok a ->
  forall idx, valid sh idx -> exists s, at_ a idx = CBytes s /\ (length s <= w)%nat.
Proof.
  intros (B & v & A & Sh) D W T. unfold read_array, parse_array_structure. rewrite (not_binary _ B). cbn [negb rbind].
  destruct (rmap float_bytes (numbers_in text)) as [l|]; [|discriminate]. cbn [rbind]. unfold need. unfold Array.holds in A. rewrite A. cbn [rbind].
  destruct (shape_sizes _ _ Sh) as [-> _]. cbn [rbind]. destruct (reshape sh (flat_array (CBytes []) (map (fun x => CNum (EF x)) l))) as [a0|] eqn:R; [|discriminate]. cbn [rbind].
  assert (H : md_has m $"DATA_TYPE" = true).
  { unfold Array.holds in D. rewrite TableLabel.md_has_dict, TableLabel.dict_has_eq, <- TableLabel.md_get_dict, D. reflexivity. }
  rewrite H. unfold need_str. unfold Array.holds in D. rewrite D. cbn [rbind]. rewrite (need_nat_of _ _ _ W). cbn [rbind].
  destruct (Types.C17_text name w T) as (dt & -> & M). cbn [rbind]. unfold np_dtype. rewrite M. cbn [rbind]. intros E idx V.
  assert (Pl : prod sh = length l).
  { unfold reshape, size, flat_array in R. cbn [shape] in R. destruct (Nat.eqb_spec (prod sh) (prod [length (map (fun x => CNum (EF x)) l)])) as [X|]; [|discriminate].
    rewrite map_length in X. cbn [prod fold_right] in X. fold (prod sh) in X. lia. }
  destruct (reshape_flat (CBytes []) (map (astype repr (mkT NoOrder KBytes w)) l) sh) as (a' & Ea & _ & Ha); [now rewrite map_length|].
  rewrite Ea in E. injection E as <-. rewrite Ha by exact V. apply lin_lt in V. rewrite nth_indep with (d' := astype repr (mkT NoOrder KBytes w) NaN) by (rewrite map_length; lia).
  rewrite map_nth. eexists. split; [reflexivity|]. rewrite firstn_length. apply Nat.le_min_l.
Qed.
Print Assumptions C72_ascii_types_refuted.
Example C72_ascii_types_meets : exists a, read_array (fun _ => $"1.5") false [] $"1.50" [($"AXIS_ITEMS", PInt 1); ($"DATA_TYPE", PStr $"ASCII_REAL"); ($"BYTES", PInt 4)] 0 = Ok a /\
  ravel a = [CBytes $"1.5"].
Proof. eexists. split; vm_compute; reflexivity. Qed.
