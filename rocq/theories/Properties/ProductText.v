(** * C82, continued: tables of text *)
From Verif.Base Require Import Py Val Numpy PyFacts.
From Verif.Model Require Import Files Pvl Meta Position Types Pds4Types Pds4Values Array Objects Dispatch Scaling Table TableValues TextTable Histogram PdsImage Product.
From Verif.Spec Require Import Types Pds4Values Pvl Meta Trim Files Dispatch Objects Position Array Table TableValues TextTable PdsImage Image Histogram Product.
From Verif.Proofs Require Import Product TextTable.
From Verif.Properties Require Import Files Dispatch Objects ObjectFiles Position Table PdsImage TableValues TextTable Array Histogram Product.
Local Open Scope Z_scope.

(** what the label says of the product, "" if nothing *)
Inductive product_says (es : list entry) (label : multidict) (k : str) : pv -> Prop :=
| said v : gives es label k v -> v <> PNone -> product_says es label k v
| unsaid : values_of k (PMulti label) = [] -> product_says es label k (PStr []).
(** the object [name] with the block [m], in the file [q]; [rb] and [rt] are the size and type of the
    product's records, [z] is the byte that the pointer's value stands for *)
Record text_in (d : disk) (fn : path) (es : list entry) (label : multidict) (names : list str) (name : str) (m : multidict) (target rb rt : pv) (q : path) (z : Z) : Prop := {
  ti_listed : In name names; ti_name : name <> $"LABEL"; ti_caret : forall s, name <> "^"%char :: s;
  ti_block : gives es label name (PMulti m); ti_pointer : gives es label (pointer name) target;
  ti_form : one_form label; ti_kaguya : not_kaguya_spectrum label; ti_file : data_file (listing d) fn target q;
  ti_records : product_says es label $"RECORD_BYTES" rb; ti_type : product_says es label $"RECORD_TYPE" rt;
  ti_start : starts_at rb (Some m) (Product.size d q) target z; ti_some : target <> PTuple [] }.
(** the number of lines before the one a pointer names *)
Inductive lines_before : pv -> nat -> Prop :=
| at_line f n : lines_before (PTuple [f; PInt (1 + Z.of_nat n)]) n
| at_top a b s : lines_before (PStr (a :: b :: s)) 0%nat.
(** the lines of a table: the bytes from [z] on, as many as its label says (to the end of the file
    if it says nothing); or, in files without records, the lines from that of the pointer on *)
Inductive rows_at (rb rt : pv) (m : multidict) (name : str) (target : pv) (z : Z) (file : list ascii) (lines : list str) : Prop :=
| rows_in_bytes pre post len : ~ stream_table rb rt name target m -> says_length rb m len -> (len <> None \/ ~ Spec.Position.mentions name $"HEADER") ->
    file = pre ++ concat lines ++ post -> z = Z.of_nat (length pre) ->
    len = Some (Z.of_nat (length (concat lines))) \/ (len = None /\ post = []) -> rows_at rb rt m name target z file lines
| rows_in_lines pre post : stream_table rb rt name target m -> 0 <= z -> lines_before target (length pre) -> file_has_lines file (pre ++ lines ++ post) ->
    says_records m (Some (Z.of_nat (length lines))) \/ (says_records m None /\ post = [] /\ ~ Spec.Position.mentions name $"HEADER") ->
    rows_at rb rt m name target z file lines.

Lemma says_field x es label k v : product_says es label k v -> record_field x label (flat_map completed_keys es) k = v.
Proof.
  unfold record_field. intros [w [I E] N|E].
  - rewrite (mget_unique _ _ _ _ _ I E). now destruct w.
  - destruct (mget_in (walk_order x) label (flat_map completed_keys es) k) as [->|H]; [reflexivity|]. rewrite E in H. destruct H.
Qed.
Lemma rows_located rb rt m name target z file lines : target <> PTuple [] -> rows_at rb rt m name target z file lines ->
  exists p, table_position rb rt (Some m) target name z = Ok p /\ lines_at file p lines.
Proof.
  intros Nt [pre post len Ns Sl Hh Ef Ez El|pre post Hs Hz Hb Hf Hr].
  - destruct (C16_extent rb rt m target name z len) as (p & E & P1 & P2 & P3); auto; [lia|]. exists p. split; [exact E|].
    apply (in_bytes _ _ _ pre post); auto; [congruence|]. rewrite P2. destruct El as [-> |[-> ->]]; auto.
  - unfold table_position. destruct (Z.ltb_spec z 0); [lia|].
    destruct (C50_stream_iff rb rt name target m Nt) as (r & -> & H1). rewrite (proj2 H1 Hs). cbn [rbind].
    assert (E : forall n, table_row_position n target = Ok (n, Z.of_nat (length pre))).
    { intros n. inversion Hb as [f k E1 E2|a b s E1 E2]; subst target; unfold table_row_position; cbn [nth_error rbind]; do 2 f_equal; lia. }
    rewrite E. cbn [rbind]. destruct Hr as [Hr|(Hr & Hp & Hh)]; rewrite (records_iff _ _ Hr); cbn [as_value is_str andb].
    + eexists. split; [reflexivity|]. apply (in_lines _ _ _ pre post); auto.
    + destruct (contains $"HEADER" name) eqn:Ec; [apply contains_iff in Ec; contradiction|]. eexists. split; [reflexivity|].
      apply (in_lines _ _ _ pre post); auto.
Qed.
(** tables of text are not read as binary ones *)
Lemma rmap_types fields rows : rmap row_of_field fields = Ok rows -> existsb ascii_typed fields = existsb (fun r => match r_type r with Some (PStr s) => contains $"ASCII" s | _ => false end) rows.
Proof.
  revert rows. induction fields as [|f fields IH]; intros rows H; cbn in H.
  - now injection H as <-.
  - destruct (row_of_field f) as [r|] eqn:E; [cbn in H|discriminate]. destruct (rmap row_of_field fields) as [rows'|]; [cbn in H|discriminate].
    injection H as <-. cbn [existsb]. rewrite <- (IH _ eq_refl). unfold ascii_typed at 1. now rewrite (row_type f r E).
Qed.
Lemma add_offsets_rows b am rows : map o_row (add_offsets b am rows) = map o_row rows.
Proof.
  revert am. induction rows as [|o rows IH]; intros am; [reflexivity|]. cbn [add_offsets map].
  destruct (opt_str_eqb _ _); [destruct am|]; cbn [map o_row]; f_equal; apply IH.
Qed.
Lemma assign_rows rows offs : map o_row (assign_offsets rows offs) = map (fun x => o_row (fst x)) rows.
Proof.
  revert offs. induction rows as [|[o [s|]] rows IH]; intros offs; cbn [assign_offsets map fst]; [reflexivity| |now rewrite IH].
  destruct offs; cbn [map o_row]; now rewrite IH.
Qed.
Lemma map_row (f : orow -> orow) rows : (forall o, o_row (f o) = o_row o) -> map o_row (map f rows) = map o_row rows.
Proof. intros H. rewrite map_map. now apply map_ext. Qed.
Lemma block_step_rows first prefix rows blk rows' : block_step first prefix rows blk = Ok rows' -> map o_row rows' = map o_row rows.
Proof.
  unfold block_step. destruct blk as [b|]; [|discriminate]. destruct (_ || _); [now intros [= <-]|].
  destruct (if contains _ b then _ else _) as [prior|e]; [cbn [rbind]|discriminate].
  set (rows1 := map _ rows). assert (E1 : map o_row rows1 = map o_row rows) by (apply map_row; intros o; now destruct (in_block b o)).
  destruct (filter (in_block b) rows) as [|o here]; [discriminate|cbn [rbind]].
  set (rows2 := if _ : bool then _ else rows1). assert (E2 : map o_row rows2 = map o_row rows1).
  { unfold rows2. destruct (_ && _); [|reflexivity]. apply map_row. intros o'. now destruct (in_block b o'). }
  destruct (_ =? 1); [intros [= <-]; congruence|]. destruct (_ <? 1); [discriminate|]. destruct (r_block_bytes (o_row o)); [|discriminate].
  intros [= <-]. rewrite add_offsets_rows. congruence.
Qed.
Lemma offsets_rows info rows t : compute_offsets info rows = Ok t -> map o_row (fst t) = rows.
Proof.
  unfold compute_offsets. set (rows0 := map _ rows). assert (E0 : map o_row rows0 = rows) by (unfold rows0; rewrite map_map; cbn; apply map_id).
  assert (I : forall r r', item_offsets r = Ok r' -> map o_row r' = map o_row r).
  { intros r r'. unfold item_offsets. destruct (existsb _ r); [|now intros [= <-]]. unfold sized.
    destruct (rmap _ r) as [ss|] eqn:E; [cbn [rbind]|discriminate]. intros [= <-]. rewrite assign_rows. clear - E. revert ss E.
    induction r as [|o r IH]; intros ss E; cbn in E; [now injection E as <-|]. destruct (item_size (o_row o)); [cbn in E|discriminate].
    destruct (rmap _ r) as [ss'|]; [cbn in E|discriminate]. injection E as <-. cbn. now rewrite (IH _ eq_refl). }
  assert (B : forall first prefix names r r', blocks_loop first prefix r names = Ok r' -> map o_row r' = map o_row r).
  { intros first prefix names. induction names as [|b names IH]; intros r r'; cbn [blocks_loop]; [now intros [= <-]|].
    destruct (block_step first prefix r b) as [r1|] eqn:E; [cbn [rbind]|discriminate]. intros H. rewrite (IH _ _ H). exact (block_step_rows _ _ _ _ _ E). }
  destruct (uniq _) as [|first rest].
  - destruct (item_offsets rows0) as [r1|] eqn:E; [cbn [rbind]|discriminate]. destruct (tail_row info r1); [cbn [rbind]|discriminate]. intros [= <-]. cbn. rewrite (I _ _ E). exact E0.
  - destruct (blocks_loop _ _ _ _) as [r1|] eqn:Eb; [cbn [rbind]|discriminate]. destruct (item_offsets r1) as [r2|] eqn:E; [cbn [rbind]|discriminate].
    destruct (tail_row info r2); [cbn [rbind]|discriminate]. intros [= <-]. cbn. rewrite (I _ _ E), (B _ _ _ _ _ Eb). exact E0.
Qed.
Lemma text_not_binary load bits fuel m name f : parse_text_structure load bits fuel m name = Ok (Some f) ->
  forall vax ebcdic mem file start, exists e, read_table vax ebcdic load bits fuel mem file m name start = Err e.
Proof.
  intros H vax ebcdic mem file start. unfold read_table, parse_table_structure, parse_text_structure in *.
  destruct (read_format_block load bits fuel m name) as [r|]; [cbn [rbind] in *|discriminate].
  assert (T : existsb ascii_typed (reindexed (fst r)) || looks_like_ascii m name = true).
  { destruct (existsb ascii_typed _ || looks_like_ascii m name); [reflexivity|]. rewrite !andb_false_r in H. cbn [negb] in H.
    destruct (has_field _ _).
    - destruct (row_info m); [cbn [rbind] in H|discriminate]. destruct (rmap row_of_field _); [cbn [rbind] in H|discriminate].
      destruct (compute_offsets _ _); [cbn [rbind] in H|discriminate]. destruct (_ && _); discriminate.
    - destruct (rmap _ _); [cbn [rbind] in H|discriminate]. destruct (negb _); discriminate. }
  clear H. destruct (row_info m) as [info|]; [cbn [rbind]|eexists; reflexivity].
  destruct (rmap row_of_field _) as [rows|] eqn:E; [cbn [rbind]|eexists; reflexivity].
  destruct (compute_offsets info rows) as [t|] eqn:Eo; [cbn [rbind]|eexists; reflexivity].
  assert (P : probably_ascii m (fst t) name = true); [|rewrite P; eexists; reflexivity].
  unfold probably_ascii. rewrite (rmap_types _ _ E), <- (offsets_rows _ _ _ Eo) in T. refine (eq_trans _ T). f_equal. clear.
  induction (fst t) as [|o l IH]; [reflexivity|]. cbn [map existsb]. now rewrite IH.
Qed.
Lemma text_loaded x d fn label_path max strict extra es label names name m target rb rt q z lines (P : list framecol -> Prop) :
  sane x -> ordinary_dirs (listing d) -> on_disk (listing d) fn -> labelled (listing d) fn label_path -> pds3_name label_path ->
  legible (literal_eval x) (walk_order x) max (contents d label_path) es label names ->
  text_in d fn es label names name m target rb rt q z -> read_as KTable name (pname q) -> ~ Objects.mentions $"HISTOGRAM" name ->
  rows_at rb rt m name target z (contents d q) lines ->
  (forall p, lines_at (contents d q) p lines -> exists frame,
     read_text_table (text_number x) (exact_number x) (text_columns x) (format_file x) (bit_columns x) (recursion x) (contents d q) m name p = Ok frame /\ P frame) ->
  exists p frame, open_product x d fn None extra max strict = Ok p /\ In name (idx (p_found p)) /\ snd (load x d p name) = Ok (OTable frame) /\ P frame.
Proof.
  intros [T D] O Hd L N ((text & I & A & W) & Wf & R & S & Op & Lo) [In_ Nl Na G1 G2 H1 Nk Q G3 G4 Ps Nt] Ra Nh Rows HP.
  destruct (product_opened x d fn label_path max strict extra es text label names) as (st & E & Ei & Ep & Ef); auto.
  destruct (rows_located _ _ _ _ _ _ _ _ Nt Rows) as (p & Epos & Lp). destruct (HP p Lp) as (frame & Er & Pf).
  eexists _, frame. split; [exact E|]. cbn [p_found]. rewrite Ei. split; [now right|]. split; [|exact Pf].
  unfold load. cbn [p_found p_meta p_keys p_filename p_dirs]. rewrite Ei.
  assert (X : str_in name ($"LABEL" :: names) = true) by (apply str_in_iff; now right). rewrite X. cbn [negb].
  rewrite (file_found x d fn label_path label es st extra name target q) by assumption. cbn [snd rbind].
  unfold read_object. cbn [p_found p_meta p_keys]. rewrite (loader_is x label _ KTable name (pname q) Nk Ra).
  destruct G1 as [I1 E1], G2 as [I2 E2].
  assert (Pt : pointerize name = pointer name).
  { unfold pointerize. destruct (startswith $"^" name) eqn:Y; [|reflexivity]. apply startswith_iff in Y. destruct Y as [y ->]. now destruct (Na y). }
  assert (Et : get_target (walk_order x) label (flat_map completed_keys es) st name = target).
  { unfold get_target. rewrite Ep, (mget_unique _ _ _ _ _ I1 E1), Pt. now apply mget_unique. }
  unfold get_block. rewrite Ep, (mblock_unique _ _ _ _ _ I1 E1). cbn [rbind block_items]. rewrite Et, (says_field x es label _ _ G3), (says_field x es label _ _ G4).
  rewrite (start_ok _ _ _ _ _ Ps). cbn [rbind]. rewrite Epos. cbn [rbind].
  assert (Ch : contains $"HISTOGRAM" name = false) by (apply not_true_iff_false; intros Y; apply contains_iff in Y; now apply Nh). rewrite Ch.
  assert (F : exists f, parse_text_structure (format_file x) (bit_columns x) (recursion x) m name = Ok (Some f)).
  { unfold read_text_table in Er. destruct (parse_text_structure _ _ _ m name) as [[f|]|]; [now exists f|discriminate|discriminate]. }
  destruct F as [f Ef']. destruct (text_not_binary _ _ _ _ _ _ Ef' (vax_number x) (cp500 x) (compressed q) (contents d q) (Z.to_nat z)) as [e Ee].
  rewrite Ee, Ef', Er. reflexivity.
Qed.

(** ** Tables whose rows are lines of fields with separators *)
Theorem C82_delimited x d fn label_path max strict extra es label names name m target rb rt q z lines t t' c blk bb prefix suffix bytes sep rows :
  sane x -> ordinary_dirs (listing d) -> on_disk (listing d) fn -> labelled (listing d) fn label_path -> pds3_name label_path ->
  legible (literal_eval x) (walk_order x) max (contents d label_path) es label names ->
  (* the object, its pointer and the file *)
  text_in d fn es label names name m target rb rt q z -> read_as KTable name (pname q) -> ~ Objects.mentions $"HISTOGRAM" name ->
  rows_at rb rt m name target z (contents d q) lines ->
  (* what is said of them *)
  says_table m t -> named m blk -> may_hold m $"BYTES" bb -> row_measures m prefix suffix bytes -> good_table blk t -> name <> $"CONTAINER" -> (3 <= recursion x)%nat ->
  t = t' ++ [Column c] -> c_items c = None ->
  let cols := table_columns (opt0 prefix) t in
  let cnames := map (fun x => c_name (fst x)) cols in
  text_block m name (map (fun x => c_type (fst x)) cols) -> Forall plain_name cnames ->
  separator m sep -> lines_hold sep lines rows -> delimited (length cols) rows ->
  let padded := 0 <? row_rest c prefix suffix bytes in
  let scales := factors c_scale cols padded in
  let shifts := factors c_shift cols padded in
  usable_factors scales -> usable_factors shifts ->
  (forall i y, nth_error cols i = Some y -> may_scale_text (text_number x) scales shifts (fst y) (map (field_at i) rows)) ->
  exists p frame, open_product x d fn None extra max strict = Ok p /\ In name (idx (p_found p)) /\ snd (load x d p name) = Ok (OTable frame) /\ 
    length frame = length cols /\
    forall i y, nth_error cols i = Some y ->
      exists col, nth_error frame i = Some col /\ frame_name cnames i (k_name col) /\
        column_from (shows_fields (text_number x)) scales shifts (fst y) (map (field_at i) rows) col.
Proof.
  intros X O Hd L N Lg Ti Ra Nh Rows Hs Hn Hb Hm Hg Hna Hf Et Hi cols cnames HT Hnames Hsep Hl Hdl padded scales shifts Us Ush Hsc.
  refine (text_loaded x d fn label_path max strict extra es label names name m target rb rt q z lines
    (fun frame => length frame = length cols /\ forall i y, nth_error cols i = Some y -> exists col, nth_error frame i = Some col /\ frame_name cnames i (k_name col) /\
        column_from (shows_fields (text_number x)) scales shifts (fst y) (map (field_at i) rows) col) X O Hd L N Lg Ti Ra Nh Rows _).
  intros p Lp. destruct (C77_delimited (text_number x) (exact_number x) (text_columns x) (format_file x) (bit_columns x) (recursion x) (contents d q) m name p t t' c blk bb prefix suffix bytes sep lines rows
    Hs Hn Hb Hm Hg Hna Hf Et Hi HT Hnames Hsep Lp Hl Hdl Us Ush Hsc) as (frame & E & F). exists frame. split; [exact E|exact F].
Qed.
Print Assumptions C82_delimited.

(** ** Tables whose fields are at fixed places of the lines *)
Theorem C82_fixed_width x d fn label_path max strict extra es label names name m target rb rt q z lines t t' c blk bb prefix suffix bytes sep rows kept cellss :
  sane x -> ordinary_dirs (listing d) -> on_disk (listing d) fn -> labelled (listing d) fn label_path -> pds3_name label_path ->
  legible (literal_eval x) (walk_order x) max (contents d label_path) es label names ->
  (* the object, its pointer and the file *)
  text_in d fn es label names name m target rb rt q z -> read_as KTable name (pname q) -> ~ Objects.mentions $"HISTOGRAM" name ->
  rows_at rb rt m name target z (contents d q) lines ->
  (* what is said of them *)
  says_table m t -> named m blk -> may_hold m $"BYTES" bb -> row_measures m prefix suffix bytes -> good_table blk t -> name <> $"CONTAINER" -> (3 <= recursion x)%nat ->
  t = t' ++ [Column c] -> c_items c = None ->
  let cols := table_columns (opt0 prefix) t in
  let cnames := map (fun x => c_name (fst x)) cols in
  let rest := row_rest c prefix suffix bytes in
  text_block m name (map (fun x => c_type (fst x)) cols) -> Forall plain_name cnames ->
  (forall s b, says_truth s b -> text_number x s = None) ->
  separator m sep -> lines_hold sep lines rows -> not_delimited (length cols) rows ->
  Forall (fun c => 0 <= fst c /\ 0 <= snd c) (row_spans cols (opt0 prefix + column_end c) rest) ->
  kept_lines (row_spans cols (opt0 prefix + column_end c) rest) lines kept -> kept <> [] ->
  Forall2 (fun x cells => Forall2 (fun l s => trimmed cell_padding (cell_in l (snd x)) s) kept cells) cols cellss ->
  let scales := factors c_scale cols (0 <? rest) in
  let shifts := factors c_shift cols (0 <? rest) in
  usable_factors scales -> usable_factors shifts ->
  Forall2 (fun y cells => may_scale_text (exact_number x) scales shifts (fst y) cells) cols cellss ->
  exists p frame, open_product x d fn None extra max strict = Ok p /\ In name (idx (p_found p)) /\ snd (load x d p name) = Ok (OTable frame) /\ 
    length frame = length cols /\
    forall i y cells, nth_error cols i = Some y -> nth_error cellss i = Some cells ->
      exists col, nth_error frame i = Some col /\ frame_name cnames i (k_name col) /\
        column_from (shows_cells (exact_number x)) scales shifts (fst y) cells col.
Proof.
  intros X O Hd L N Lg Ti Ra Nh Rows Hs Hn Hb Hm Hg Hna Hf Et Hi cols cnames rest HT Hnames Hx Hsep Hl Hdl Hsp Hk Hne Hc scales shifts Us Ush Hsc.
  refine (text_loaded x d fn label_path max strict extra es label names name m target rb rt q z lines
    (fun frame => length frame = length cols /\ forall i y cells, nth_error cols i = Some y -> nth_error cellss i = Some cells -> exists col, nth_error frame i = Some col /\ frame_name cnames i (k_name col) /\
        column_from (shows_cells (exact_number x)) scales shifts (fst y) cells col) X O Hd L N Lg Ti Ra Nh Rows _).
  intros p Lp. destruct (C78_fixed_width (text_number x) (exact_number x) (text_columns x) (format_file x) (bit_columns x) (recursion x) (contents d q) m name p t t' c blk bb prefix suffix bytes sep lines rows kept cellss
    Hs Hn Hb Hm Hg Hna Hf Et Hi HT Hnames Hx Hsep Lp Hl Hdl Hsp Hk Hne Hc Us Ush Hsc) as (frame & E & F). exists frame. split; [exact E|exact F].
Qed.
Print Assumptions C82_fixed_width.

(** ** Spreadsheets *)
Theorem C82_spreadsheet x d fn label_path max strict extra es label names name m target rb rt q z lines fields blk bb sep rows :
  sane x -> ordinary_dirs (listing d) -> on_disk (listing d) fn -> labelled (listing d) fn label_path -> pds3_name label_path ->
  legible (literal_eval x) (walk_order x) max (contents d label_path) es label names ->
  (* the object, its pointer and the file *)
  text_in d fn es label names name m target rb rt q z -> read_as KTable name (pname q) -> ~ Objects.mentions $"HISTOGRAM" name ->
  rows_at rb rt m name target z (contents d q) lines ->
  (* what is said of them *)
  says_stream m fields -> named m blk -> may_hold m $"BYTES" bb -> name <> $"CONTAINER" -> (2 <= recursion x)%nat ->
  let cols := stream_columns fields in
  text_block m name (map c_type cols) -> Forall plain_name (map c_name cols) ->
  separator m sep -> lines_hold sep lines rows -> delimited (length cols) rows ->
  usable_factors (map c_scale cols) -> usable_factors (map c_shift cols) ->
  (forall i c, nth_error cols i = Some c -> may_scale_text (text_number x) (map c_scale cols) (map c_shift cols) c (map (field_at i) rows)) ->
  exists p frame, open_product x d fn None extra max strict = Ok p /\ In name (idx (p_found p)) /\ snd (load x d p name) = Ok (OTable frame) /\ 
    length frame = length cols /\
    forall i c, nth_error cols i = Some c ->
      exists col, nth_error frame i = Some col /\ frame_name (map c_name cols) i (k_name col) /\
        column_from (shows_fields (text_number x)) (map c_scale cols) (map c_shift cols) c (map (field_at i) rows) col.
Proof.
  intros X O Hd L N Lg Ti Ra Nh Rows Hs Hn Hb Hna Hf cols HT Hnames Hsep Hl Hdl Us Ush Hsc.
  refine (text_loaded x d fn label_path max strict extra es label names name m target rb rt q z lines
    (fun frame => length frame = length cols /\ forall i c, nth_error cols i = Some c -> exists col, nth_error frame i = Some col /\ frame_name (map c_name cols) i (k_name col) /\
        column_from (shows_fields (text_number x)) (map c_scale cols) (map c_shift cols) c (map (field_at i) rows) col) X O Hd L N Lg Ti Ra Nh Rows _).
  intros p Lp. destruct (C77_spreadsheet (text_number x) (exact_number x) (text_columns x) (format_file x) (bit_columns x) (recursion x) (contents d q) m name p fields blk bb sep lines rows
    Hs Hn Hb Hna Hf HT Hnames Hsep Lp Hl Hdl Us Ush Hsc) as (frame & E & F). exists frame. split; [exact E|exact F].
Qed.
Print Assumptions C82_spreadsheet.
