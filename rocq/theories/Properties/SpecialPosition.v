(** C89: tables and headers found where the special cases of their products say. *)
From Coq Require Import QArith ZArith Lia.
From Verif.Base Require Import Py PyFacts Val.
From Verif.Model Require Import Pvl Position SpecialPosition.
From Verif.Model Require Checkers.
From Verif.Properties Require Position.
From Verif.Model Require PvlLiteral Pds4Values.
From Verif.Spec Require Pds4Values.
From Verif.Proofs Require Pds4Fields.
From Verif.Spec Require Import SpecialPosition.
Import Checkers.
Open Scope Z_scope.

(** the function that the checker chooses for the object *)
Definition chosen (c : checker) (p : asked) (m f : str) : Prop := check c p = Ok (Always m f) \/ check c p = Ok (Maybe m f).

Lemma text_window pre mid post q : p_start q = count pre -> p_length q = PInt (count mid) -> p_as_rows q = false ->
  ascii_text (pre ++ mid ++ post) q = Ok mid.
Proof.
  intros S L R. unfold ascii_text. rewrite R, L, S. unfold head_file, count. destruct (Z.ltb_spec (Z.of_nat (length pre)) 0); [lia|].
  destruct (Z.ltb_spec (Z.of_nat (length mid)) 0); [lia|].
  rewrite !Nat2Z.id, skipn_app, skipn_all, Nat.sub_diag. cbn [skipn app]. now rewrite firstn_app, Nat.sub_diag, firstn_O, firstn_all, app_nil_r.
Qed.
Lemma rows_count w rows : rows_of w rows -> count (concat rows) = count rows * w.
Proof.
  unfold count. induction 1 as [|r rows Hr _ IH]; [reflexivity|]. cbn [concat length]. rewrite app_length. lia.
Qed.
Lemma generic_shape p b target s q : generic p b target s = Ok q ->
  exists a, check_delimiter_stream (ident p $"RECORD_BYTES") (ident p $"RECORD_TYPE") (object p) target b = Ok a /\
  p_as_rows q = a /\ (a = false -> p_start q = s /\
    table_length b (ident p $"RECORD_BYTES") (match b with Some m => extract_table_records m | None => PNone end) = Ok (p_length q)).
Proof.
  unfold generic, table_position. intros H. destruct (s <? 0); [discriminate|].
  destruct (check_delimiter_stream _ _ _ _ _) as [a|]; [|discriminate]. cbn [rbind] in H. exists a. split; [reflexivity|].
  destruct a.
  - destruct (table_row_position _ _) as [[l z]|]; [|discriminate]. cbn [rbind] in H.
    destruct (_ && _); [discriminate|]. injection H as <-. split; [reflexivity|discriminate].
  - destruct (table_length _ _ _) as [l|]; [|discriminate]. cbn [rbind] in H.
    destruct (_ && _); [discriminate|]. injection H as <-. split; [reflexivity|]. intros _. now split.
Qed.
Lemma generic_nonempty p b s : generic p b (PTuple []) s = Err IndexError \/ generic p b (PTuple []) s = Err ValueError.
Proof. unfold generic, table_position. destruct (s <? 0); now right + left. Qed.
Lemma not_stream p m target s q : generic p (Some m) target s = Ok q ->
  ~ stream_table (ident p $"RECORD_BYTES") (ident p $"RECORD_TYPE") (object p) target m -> p_as_rows q = false.
Proof.
  intros G N. assert (T : target <> PTuple []).
  { intros ->. destruct (generic_nonempty p (Some m) s) as [E|E]; rewrite E in G; discriminate. }
  destruct (generic_shape p (Some m) target s q G) as (a & C & <- & _).
  destruct (Position.C50_stream_iff (ident p $"RECORD_BYTES") (ident p $"RECORD_TYPE") (object p) target m T) as (r & C' & I).
  rewrite C in C'. injection C' as <-. destruct (p_as_rows q); [|reflexivity]. now destruct (N (proj1 I eq_refl)).
Qed.

Lemma props_chosen p b target size s m f : chosen Position p m f -> table_props p b target size s = position_handler m f p b target size s.
Proof. unfold table_props. now intros [-> | ->]. Qed.
Lemma mul_int a b : py_mul (PInt a) (PInt b) = Ok (PInt (a * b)). Proof. reflexivity. Qed.
(** *** A special case of the seven answers just when the generic query does, with the same start,
    and the length of the rows that it knows of *)
Theorem C89_found p m md f target size s n w :
  chosen Position p md f -> known (ident p) m md f n w ->
  table_props p (Some m) target size s =
  match table_position (ident p $"RECORD_BYTES") (ident p $"RECORD_TYPE") (Some m) target (object p) s with
  | Ok q => Ok (Some (mkPos (p_start q) (PInt (n * w)) (p_as_rows q)))
  | Err e => Err e
  end.
Proof.
  intros C K. rewrite (props_chosen p _ _ _ _ _ _ C). change (table_position _ _ _ _ _ _) with (generic p (Some m) target s).
  destruct K as [n r N R|n r N R|n r N R|n N|n r N R|n N|n r N R]; unfold holds in *;
    match goal with |- position_handler _ _ _ _ _ _ _ = ?r => set (rhs := r) end;
    cbv [position_handler str_eqb]; cbn;
    unfold rss_get_position, mrs_get_position, ebrocc_geom_get_position, mrs_ddr_atmo_position, crism_mrdr_ancill_position, marsis_get_position, rpws_ancil_position;
    subst rhs; destruct (generic p (Some m) target s) as [q|e]; cbn [rbind]; try reflexivity;
    unfold block_item, item_; rewrite ?N, ?R; cbn [rbind py_add py_mul]; rewrite ?N, ?R; cbn [rbind py_add py_mul]; unfold with_length; do 4 f_equal; ring.
Qed.
Print Assumptions C89_found.
(** *** Reading such a table gives its rows, all of them and nothing else, wherever it is in the
    file and whatever precedes and follows it *)
Theorem C89_whole_table p m md f target w q pre rows post :
  chosen Position p md f -> known (ident p) m md f (count rows) w -> rows_of w rows ->
  ~ stream_table (ident p $"RECORD_BYTES") (ident p $"RECORD_TYPE") (object p) target m ->
  table_props p (Some m) target (count (pre ++ concat rows ++ post)) (count pre) = Ok (Some q) ->
  ascii_text (pre ++ concat rows ++ post) q = Ok (concat rows).
Proof.
  intros C K W N T. rewrite (C89_found p m md f target _ _ _ _ C K) in T.
  change (table_position _ _ _ _ _ _) with (generic p (Some m) target (count pre)) in T.
  destruct (generic p (Some m) target (count pre)) as [g|] eqn:G; [|discriminate]. injection T as <-.
  pose proof (not_stream p m target _ g G N) as S. destruct (generic_shape p (Some m) target _ g G) as (a & _ & A & H).
  rewrite S in A. subst a. destruct (H eq_refl) as [P _].
  apply text_window; cbn; [exact P|now rewrite (rows_count w rows W)|exact S].
Qed.
Print Assumptions C89_whole_table.

Lemma has_get m k : md_has m k = match md_get m k with Some _ => true | None => false end.
Proof.
  unfold md_has, md_get. induction m as [|x m IH]; [reflexivity|]. cbn [existsb find]. now destruct (str_eqb (fst x) k).
Qed.
(** *** What the label alone says is too short: without the special case the last bytes of the
    table would be missing.  (The label has no more than ROWS and ROW_BYTES.) *)
Theorem C89_label_too_short p m md f target w g pre rows post :
  known (ident p) m md f (count rows) w -> In f [$"rss_get_position"; $"mrs_get_position"; $"ebrocc_geom_get_position"] ->
  rows_of w rows -> rows <> [] ->
  lacks m $"BYTES" -> lacks m $"RECORDS" -> lacks m $"RECORD_BYTES" -> lacks m $"ROW_SUFFIX_BYTES" ->
  (forall r, holds m $"ROW_BYTES" (PInt r) -> 0 <= r) ->
  ~ stream_table (ident p $"RECORD_BYTES") (ident p $"RECORD_TYPE") (object p) target m ->
  table_position (ident p $"RECORD_BYTES") (ident p $"RECORD_TYPE") (Some m) target (object p) (count pre) = Ok g ->
  exists t lost, ascii_text (pre ++ concat rows ++ post) g = Ok t /\ lost <> [] /\ t ++ lost = concat rows.
Proof.
  intros K I W Ne L1 L2 L3 L4 Pos N G. pose proof (not_stream p m target _ g G N) as S.
  destruct (generic_shape p (Some m) target _ g G) as (a & _ & A & H). rewrite S in A. subst a. destruct (H eq_refl) as [P L].
  assert (X : exists r d, 0 < d /\ holds m $"ROWS" (PInt (count rows)) /\ holds m $"ROW_BYTES" (PInt r) /\ w = r + d).
  { destruct K as [n r HN R|n r HN R|n r HN R|n HN|n r HN R|n HN|n r HN R]; (* the others are not in the list *)
      try (exfalso; cbn in I; repeat (destruct I as [I|I]; [discriminate I|]); exact I);
      [exists r, 1|exists r, 1|exists r, 2]; repeat split; auto; lia. }
  destruct X as (r & d & Hd & HN & HR & ->). specialize (Pos r HR). unfold holds, lacks in *.
  assert (E : p_length g = PInt (r * count rows)).
  { unfold table_length, extract_table_records in L. rewrite !has_get, L1, L2, L3, HN, HR in L. cbn [rbind] in L. unfold item_ in L.
    rewrite HR, L4 in L. cbn [rbind py_add py_mul] in L. injection L as <-. now rewrite Z.add_0_r. }
  assert (Cn : 0 < count rows) by (unfold count; destruct rows; [now destruct Ne|cbn [length]; lia]).
  pose proof (rows_count _ _ W) as RC. set (k := Z.to_nat (r * count rows)).
  assert (Hk : (k < length (concat rows))%nat) by (unfold count in *; unfold k; nia).
  exists (firstn k (concat rows)), (skipn k (concat rows)). split; [|split; [|apply firstn_skipn]].
  - rewrite <- (firstn_skipn k (concat rows)) at 1. rewrite <- app_assoc. apply text_window; [exact P| |exact S].
    rewrite E. unfold count at 2. rewrite firstn_length_le by lia. f_equal. unfold k, count. nia.
  - intros Z0. apply (f_equal (@length _)) in Z0. rewrite skipn_length in Z0. cbn in Z0. lia.
Qed.
Print Assumptions C89_label_too_short.

(** *** The shape model of Hartley 2: a table that starts at row [k] of a file of rows of 79 bytes *)
Theorem C89_cartesian p m fn k target q n rows size s :
  chosen Position p $"epoxi" $"cart_model_get_position" -> holds m $"ROWS" (PInt (Z.of_nat n)) ->
  target = PTuple [fn; PInt k] -> 1 <= k -> (Z.to_nat (k - 1) + n <= length rows)%nat -> rows_of 79 rows ->
  ~ stream_table (ident p $"RECORD_BYTES") (ident p $"RECORD_TYPE") (object p) target m ->
  table_props p (Some m) target size s = Ok (Some q) ->
  ascii_text (concat rows) q = Ok (concat (firstn n (skipn (Z.to_nat (k - 1)) rows))).
Proof.
  intros C R -> K B W N T. rewrite (props_chosen _ _ _ _ _ _ _ C) in T. cbv [position_handler str_eqb] in T. cbn in T.
  unfold cart_model_get_position in T. destruct (generic p (Some m) _ s) as [g|] eqn:G; [|discriminate].
  pose proof (not_stream p m _ _ g G N) as S. cbn [rbind second_less_one py_sub1] in T. unfold block_item, item_ in T. unfold holds in R.
  rewrite R in T. cbn [rbind py_mul] in T. injection T as <-.
  set (j := Z.to_nat (k - 1)) in *.
  assert (E : concat rows = concat (firstn j rows) ++ concat (firstn n (skipn j rows)) ++ concat (skipn n (skipn j rows))).
  { now rewrite <- !concat_app, !firstn_skipn. }
  assert (W1 : rows_of 79 (firstn j rows) /\ rows_of 79 (skipn j rows)).
  { unfold rows_of in *. rewrite <- (firstn_skipn j rows) in W. now apply Forall_app in W. }
  assert (W2 : rows_of 79 (firstn n (skipn j rows))).
  { destruct W1 as [_ W1]. unfold rows_of in *. rewrite <- (firstn_skipn n (skipn j rows)) in W1. now apply Forall_app in W1. }
  rewrite E at 1. apply text_window.
  - change (79 * (k - 1) = count (concat (firstn j rows))). rewrite (rows_count _ _ (proj1 W1)). unfold count. rewrite firstn_length_le by lia. unfold j. lia.
  - change (PInt (79 * Z.of_nat n) = PInt (count (concat (firstn n (skipn j rows))))). rewrite (rows_count _ _ W2). unfold count. rewrite firstn_length_le by (rewrite skipn_length; lia). f_equal. lia.
  - exact S.
Qed.
Print Assumptions C89_cartesian.

Lemma start_chosen p b target size m f : chosen Offset p m f ->
  start_byte p b target size =
  (do o <- offset_handler m f p size; match o with Some z => Ok z | None => data_start_byte (ident p $"RECORD_BYTES") b target size end).
Proof. unfold start_byte. now intros [-> | ->]. Qed.
Lemma complete_iff f : whole_rows f = true <-> complete f.
Proof.
  unfold whole_rows, complete, mentions. cbn [existsb]. rewrite !orb_true_iff, orb_false_r, !contains_iff || rewrite !orb_true_iff, !contains_iff.
  intuition (try discriminate).
Qed.
Lemma huygens_row f said w : huygens_width f said w -> (if whole_rows f then said else said + 1) = w.
Proof.
  intros [C|C]; [apply complete_iff in C; now rewrite C|]. destruct (whole_rows f) eqn:E; [|reflexivity]. now destruct (C (proj1 (complete_iff f) E)).
Qed.
(** *** Huygens: where the file is a header and then the rows of the table, the HEADER read is
    just the header and the TABLE just the rows, whatever the pointers of the label say *)
Theorem C89_huygens p m target said w header rows t :
  chosen Offset p $"cassini" $"get_offset" -> chosen Position p $"cassini" $"get_position" ->
  ident p $"ROWS" = PInt (count rows) -> ident p $"ROW_BYTES" = PInt said -> huygens_width (file p) said w -> rows_of w rows ->
  ~ stream_table (ident p $"RECORD_BYTES") (ident p $"RECORD_TYPE") (object p) target m ->
  table_text p (Some m) target (header ++ concat rows) = Ok t ->
  (object p = $"HEADER" -> t = header) /\ (object p <> $"HEADER" -> t = concat rows).
Proof.
  intros CO CP R B HW W N T. pose proof (huygens_row _ _ _ HW) as Hw.
  unfold table_text in T. rewrite (start_chosen _ _ _ _ _ _ CO) in T.
  set (size := Z.of_nat (length (header ++ concat rows))) in T.
  assert (O : offset_handler $"cassini" $"get_offset" p size = Ok (Some (count header))).
  { change (offset_handler $"cassini" $"get_offset" p size) with (do z <- cassini_get_offset p size; Ok (Some z)).
    unfold cassini_get_offset. rewrite B, R. fold (whole_rows (file p)). rewrite Hw. cbn [rbind]. do 2 f_equal.
    unfold size. rewrite app_length, Nat2Z.inj_add. fold (count (concat rows)). rewrite (rows_count _ _ W). unfold count. lia. }
  rewrite O in T. cbn [rbind] in T.
  rewrite (props_chosen _ _ _ _ _ _ _ CP) in T.
  change (position_handler $"cassini" $"get_position" p (Some m) target size (count header))
    with (do q <- cassini_get_position p (Some m) target size (count header); Ok (Some q)) in T.
  unfold cassini_get_position in T. destruct (generic p (Some m) target (count header)) as [g|] eqn:G; [|discriminate].
  pose proof (not_stream p m _ _ g G N) as S. destruct (generic_shape p (Some m) target _ g G) as (a & _ & A & H).
  rewrite S in A. subst a. destruct (H eq_refl) as [P _]. cbn [rbind] in T.
  assert (E : (if whole_rows (file p) then Ok (ident p $"ROW_BYTES") else py_add (ident p $"ROW_BYTES") (PInt 1)) = Ok (PInt w)).
  { rewrite B, <- Hw. now destruct (whole_rows (file p)). }
  rewrite E, R in T. cbn [rbind py_mul] in T. rewrite <- (rows_count _ _ W) in T.
  destruct (str_eqb (object p) $"HEADER") eqn:Q.
  - apply str_eqb_eq in Q. split; [|now intros X]. intros _. cbn [rbind] in T.
    change (header ++ concat rows) with ([] ++ header ++ concat rows) in T.
    rewrite (text_window [] header (concat rows)) in T; [now injection T| reflexivity| |exact S].
    cbn [with_length p_length]. unfold size. rewrite app_length, Nat2Z.inj_add. unfold count. f_equal. lia.
  - apply str_eqb_neq in Q. split; [now intros X|]. intros _. cbn [rbind] in T.
    replace (header ++ concat rows) with (header ++ concat rows ++ []) in T by (now rewrite app_nil_r).
    rewrite (text_window header (concat rows) []) in T; [now injection T|exact P| |exact S]. reflexivity.
Qed.
Print Assumptions C89_huygens.
(** The claim fails for the header of a file of lines: its size in bytes is taken for a number of
    lines, and more lines than there are asked for *)
Definition huygens (rows : list str) (object : str) : asked :=
  mkAsked (fun k => if str_eqb k $"INSTRUMENT_NAME" then PStr $"DESCENT IMAGER SPECTRAL RADIOMETER"
                    else if str_eqb k $"PRODUCT_TYPE" then PStr $"RDR" else if str_eqb k $"RECORD_TYPE" then PStr $"STREAM"
                    else if str_eqb k $"ROWS" then PInt (count rows) else if str_eqb k $"ROW_BYTES" then PInt 3 else PStr [])
    object $"STRIP.TAB" (PMulti []) (fun _ => PNone) [] PNone (fun _ => Err ValueError).
Theorem C89_huygens_stream_refuted : exists p m target header rows,
  chosen Offset p $"cassini" $"get_offset" /\ chosen Position p $"cassini" $"get_position" /\ object p = $"HEADER" /\
  ident p $"ROWS" = PInt (count rows) /\ ident p $"ROW_BYTES" = PInt 3 /\ rows_of 4 rows /\ huygens_width (file p) 3 4 /\
  table_text p (Some m) target (header ++ concat rows) = Err EOFError_.
Proof.
  set (rows := [[ascii_of_nat 49; ascii_of_nat 50; CR; NL]; [ascii_of_nat 51; ascii_of_nat 52; CR; NL]]).
  exists (huygens rows $"HEADER"), [($"ROWS", PInt 1)], (PTuple [PStr $"STRIP.TAB"; PInt 1]), ($"SECOND" ++ [CR; NL]), rows.
  split; [right; vm_compute; reflexivity|]. split; [left; vm_compute; reflexivity|]. split; [reflexivity|]. split; [reflexivity|]. split; [reflexivity|].
  split; [repeat constructor|]. split; [|vm_compute; reflexivity].
  apply (one_longer _ 3). intros C. apply complete_iff in C. vm_compute in C. discriminate.
Qed.
Print Assumptions C89_huygens_stream_refuted.

(** *** Opacities measured by Phoenix: the table is the last rows of the file, however long its
    header is *)
Theorem C89_opacity_table p m target w header rows t :
  chosen Offset p $"phoenix" $"phxao_table_offset" -> check Position p = Ok Nothing ->
  ident p $"ROWS" = PInt (count rows) -> ident p $"ROW_BYTES" = PInt w -> rows_of w rows ->
  holds m $"ROWS" (PInt (count rows)) -> holds m $"ROW_BYTES" (PInt w) ->
  lacks m $"BYTES" -> lacks m $"RECORDS" -> lacks m $"RECORD_BYTES" -> lacks m $"ROW_SUFFIX_BYTES" ->
  ~ stream_table (ident p $"RECORD_BYTES") (ident p $"RECORD_TYPE") (object p) target m ->
  table_text p (Some m) target (header ++ concat rows) = Ok t -> t = concat rows.
Proof.
  intros CO CP R B W HN HR L1 L2 L3 L4 N T. unfold table_text in T. rewrite (start_chosen _ _ _ _ _ _ CO) in T.
  set (size := Z.of_nat (length (header ++ concat rows))) in T.
  assert (O : offset_handler $"phoenix" $"phxao_table_offset" p size = Ok (Some (count header))).
  { change (offset_handler $"phoenix" $"phxao_table_offset" p size) with (do z <- phxao_table_offset p size; Ok (Some z)).
    unfold phxao_table_offset, count_from_bottom. rewrite B, R. cbn [rbind py_mul]. do 2 f_equal.
    unfold size. rewrite app_length, Nat2Z.inj_add. fold (count (concat rows)). rewrite (rows_count _ _ W). unfold count. lia. }
  rewrite O in T. cbn [rbind] in T. unfold table_props in T. rewrite CP in T. cbn [rbind] in T.
  destruct (generic p (Some m) target (count header)) as [g|] eqn:G; [|discriminate]. cbn [rbind] in T.
  pose proof (not_stream p m target _ g G N) as S. destruct (generic_shape p (Some m) target _ g G) as (a & _ & A & H).
  rewrite S in A. subst a. destruct (H eq_refl) as [P L]. unfold holds, lacks in *.
  unfold table_length, extract_table_records in L. rewrite !has_get, L1, L2, L3, HN, HR in L. cbn [rbind] in L. unfold item_ in L.
  rewrite HR, L4 in L. cbn [rbind py_add py_mul] in L. injection L as L.
  replace (header ++ concat rows) with (header ++ concat rows ++ []) in T by (now rewrite app_nil_r).
  rewrite (text_window header (concat rows) []) in T; [now injection T|exact P| |exact S]. rewrite <- L, (rows_count _ _ W). f_equal. ring.
Qed.
Print Assumptions C89_opacity_table.
Lemma lines_first hs rest : Forall (fun l : str => ~ In NL l) hs ->
  file_lines (concat (map (fun l => l ++ [NL]) hs) ++ rest) = map (fun l => l ++ [NL]) hs ++ file_lines rest.
Proof.
  induction 1 as [|l hs Hl _ IH]; [reflexivity|]. cbn [map concat]. rewrite <- app_assoc, <- app_assoc, <- app_comm_cons.
  cbn [app]. rewrite <- IH. clear IH. set (tail := concat _ ++ rest). clearbody tail.
  induction l as [|c l IHl].
  - cbn [app file_lines]. now rewrite (proj2 (Ascii.eqb_eq NL NL) eq_refl).
  - cbn [app file_lines]. destruct (Ascii.eqb_spec c NL) as [->|_]; [exfalso; apply Hl; now left|].
    rewrite IHl; [reflexivity|]. intros I. apply Hl. now right.
Qed.
Lemma firstn_pre {A} (a b : list A) n : length a = n -> firstn n (a ++ b) = a.
Proof. intros <-. now rewrite firstn_app, Nat.sub_diag, firstn_O, firstn_all, app_nil_r. Qed.
(** *** and its header is its first lines, however long they are *)
Theorem C89_opacity_header p m target size s lines rest :
  chosen Position p $"phoenix" $"phxao_header_position" -> says_records m (Some (count lines)) -> Forall (fun l : str => ~ In NL l) lines ->
  exists q, table_props p (Some m) target size s = Ok (Some q) /\
    ascii_text (concat (map (fun l => l ++ [NL]) lines) ++ rest) q = Ok (join [CR; NL] (map (fun l => l ++ [NL]) lines)).
Proof.
  intros C R F. rewrite (props_chosen _ _ _ _ _ _ _ C).
  change (position_handler $"phoenix" $"phxao_header_position" p (Some m) target size s) with (do q <- phxao_header_position (Some m); Ok (Some q)).
  assert (E : extract_table_records m = PInt (count lines)).
  { unfold extract_table_records. inversion R as [n H|n H1 H2|]; subst; unfold holds, lacks in *; [now rewrite H|now rewrite H1, H2]. }
  unfold phxao_header_position. rewrite E. eexists. split; [reflexivity|].
  unfold ascii_text. cbn [p_as_rows p_start p_length Z.to_nat skipn Z.ltb Z.compare andb]. rewrite (lines_first _ _ F).
  unfold count. rewrite Nat2Z.id, app_length, map_length. match goal with |- context [(?a <? ?b)%nat] => replace (a <? b)%nat with false by (symmetry; apply Nat.ltb_ge; apply Nat.le_add_r) end.
  do 2 f_equal. apply firstn_pre, map_length.
Qed.
Print Assumptions C89_opacity_header.

(** *** Labels that leave out <BYTES>: the start is the same as if it was written there *)
Theorem C89_bytes_left_out p b target size f n :
  chosen Offset p $"phoenix" $"wcl_rdr_offset" \/ chosen Offset p $"msl_rems" $"edr_offset" ->
  label p ($"^" ++ object p) = bare f n -> 1 <= n ->
  start_byte p b target size = Ok (n - 1) /\ data_start_byte (ident p $"RECORD_BYTES") b (with_bytes f n) size = Ok (n - 1).
Proof.
  intros C L N. split.
  - destruct C as [C|C]; rewrite (start_chosen _ _ _ _ _ _ C);
      [change (offset_handler $"phoenix" $"wcl_rdr_offset" p size) with (do z <- wcl_rdr_offset p; Ok (Some z))
      |change (offset_handler $"msl_rems" $"edr_offset" p size) with (do z <- rems_edr_offset p; Ok (Some z))];
      unfold wcl_rdr_offset, rems_edr_offset, pointer_of; rewrite L; reflexivity.
  - unfold data_start_byte. cbn -[Z.sub Z.ltb]. destruct (Z.ltb_spec (n - 1) 0); [lia|reflexivity].
Qed.
Print Assumptions C89_bytes_left_out.
(** *** THEMIS: a file of (as the label has it) at least as many records as bytes has its pointer in bytes;
    any other is as the label says *)
Theorem C89_themis p b target size f n k :
  chosen Offset p $"themis" $"get_qube_offset" -> label p $"FILE_RECORDS" = PInt n -> label p $"^QUBE" = bare f k ->
  (size <= n -> start_byte p b target size = Ok (k - 1)) /\
  (n < size -> start_byte p b target size = data_start_byte (ident p $"RECORD_BYTES") b target size).
Proof.
  intros C F L. rewrite (start_chosen _ _ _ _ _ _ C).
  change (offset_handler $"themis" $"get_qube_offset" p size) with (get_qube_offset p size). unfold get_qube_offset. rewrite F, L.
  split; intros H; destruct (Z.leb_spec size n); try lia; reflexivity.
Qed.
Print Assumptions C89_themis.
(** *** Cassini ISS, volume 1006: all objects but IMAGE_HEADER are one record before where the label says *)
Theorem C89_coiss p b target size f n r :
  chosen Offset p $"cassini" $"coiss_1006_offset" -> label p ($"^" ++ object p) = bare f n -> ident p $"RECORD_BYTES" = PInt r ->
  0 <= r -> 2 <= n -> (forall m, b = Some m -> lacks m $"RECORD_BYTES") ->
  start_byte p b target size =
  (if str_eqb (object p) $"IMAGE_HEADER" then data_start_byte (PInt r) b target size else data_start_byte (PInt r) b (bare f (n - 1)) size).
Proof.
  intros C L R Hr N B. rewrite (start_chosen _ _ _ _ _ _ C).
  change (offset_handler $"cassini" $"coiss_1006_offset" p size) with (coiss_1006_offset p). unfold coiss_1006_offset, pointer_of. rewrite L, R.
  destruct (str_eqb (object p) $"IMAGE_HEADER"); [reflexivity|]. cbn [bare second_less_one py_sub1 rbind].
  unfold data_start_byte.
  assert (E : (match b with Some m => match md_get m $"RECORD_BYTES" with Some v => v | None => PInt r end | None => PInt r end) = PInt r).
  { destruct b as [m|]; [|reflexivity]. now rewrite (B m eq_refl). }
  rewrite E. cbn [last_ bare rev app rbind]. destruct (Z.eqb_spec (n - 1) 1) as [X|X].
  - cbn [rbind Z.ltb Z.compare]. f_equal. nia.
  - cbn [is_none_or_empty negb py_mul rbind]. destruct (Z.ltb_spec (r * Z.max (n - 1 - 1) 0) 0) as [Y|Y]; [nia|]. f_equal. nia.
Qed.
Print Assumptions C89_coiss.
(** The claim fails for an object that the label has in the first record: it is looked for before
    the start of the file *)
Definition coiss : asked :=
  mkAsked (fun k => if str_eqb k $"DATA_SET_ID" then PStr $"CO-E/V/J-ISSNA/ISSWA-2-EDR-V1.0" else if str_eqb k $"RECORD_BYTES" then PInt 1048 else PStr [])
    $"TELEMETRY_TABLE" $"N1.IMG" (PMulti []) (fun k => if str_eqb k $"^TELEMETRY_TABLE" then bare $"N1.IMG" 1 else PNone) [] PNone (fun _ => Ok (1359362957 # 1)%Q).
Theorem C89_coiss_first_refuted : exists p b target,
  chosen Offset p $"cassini" $"coiss_1006_offset" /\ label p ($"^" ++ object p) = bare $"N1.IMG" 1 /\ ident p $"RECORD_BYTES" = PInt 1048 /\
  forall size, start_byte p b target size = Ok (-1048) /\ table_props p b target size (-1048) = Err ValueError.
Proof.
  exists coiss, (Some []), (bare $"N1.IMG" 1). split; [right; vm_compute; reflexivity|]. split; [reflexivity|]. split; [reflexivity|].
  intros size. split; [rewrite (start_chosen _ _ _ _ $"cassini" $"coiss_1006_offset"); [reflexivity|right; vm_compute; reflexivity]|].
  unfold table_props. replace (check Position coiss) with (Ok Nothing : res action) by (vm_compute; reflexivity). reflexivity.
Qed.
Print Assumptions C89_coiss_first_refuted.
(** *** Offsets that the code knows, whatever the label says *)
Theorem C89_constants p b target size :
  (chosen Offset p $"lro" $"get_crater_offset" \/ chosen Offset p $"msl_edr" $"edr_offset" -> start_byte p b target size = Ok 64) /\
  (chosen Offset p $"msl_cmn" $"get_offset" ->
     (object p = $"HISTOGRAM" -> start_byte p b target size = Ok 300) /\
     (object p = $"CHMN_HSK_HEADER_TABLE" -> start_byte p b target size = Ok 0) /\
     (object p <> $"HISTOGRAM" -> object p <> $"CHMN_HSK_HEADER_TABLE" ->
        start_byte p b target size = data_start_byte (ident p $"RECORD_BYTES") b target size)).
Proof.
  split.
  - intros [C|C]; rewrite (start_chosen _ _ _ _ _ _ C); reflexivity.
  - intros C. rewrite (start_chosen _ _ _ _ _ _ C).
    change (offset_handler $"msl_cmn" $"get_offset" p size) with (Ok (chemin_get_offset p)). unfold chemin_get_offset. cbn [rbind].
    split; [|split].
    + intros ->. reflexivity.
    + intros ->. reflexivity.
    + intros X Y. apply str_eqb_neq in X. apply str_eqb_neq in Y. now rewrite X, Y.
Qed.
Print Assumptions C89_constants.
(** *** Envi headers of MSX: everything from the start of the object *)
Theorem C89_envi p b target pre rest q :
  chosen Position p $"msx" $"cube_envi_header_position" ->
  (forall m, b = Some m -> ~ stream_table (ident p $"RECORD_BYTES") (ident p $"RECORD_TYPE") (object p) target m) ->
  table_props p b target (count (pre ++ rest)) (count pre) = Ok (Some q) -> ascii_text (pre ++ rest) q = Ok rest.
Proof.
  intros C N T. rewrite (props_chosen _ _ _ _ _ _ _ C) in T.
  change (position_handler $"msx" $"cube_envi_header_position" p b target (count (pre ++ rest)) (count pre))
    with (do q <- cube_envi_header_position p b target (count (pre ++ rest)) (count pre); Ok (Some q)) in T.
  unfold cube_envi_header_position in T. destruct (generic p b target (count pre)) as [g|] eqn:G; [|discriminate]. cbn [rbind] in T. injection T as <-.
  destruct (generic_shape p b target _ g G) as (a & Ck & A & H).
  assert (S : p_as_rows g = false).
  { destruct b as [m|]; [exact (not_stream p m target _ g G (N m eq_refl))|]. subst a. unfold check_delimiter_stream in Ck.
    destruct (match target with PTuple l => last_ l | _ => Ok PNone end) as [x|]; [|discriminate]. cbn [rbind] in Ck.
    destruct (match target with PDict d => get_is d $"units" $"BYTES" | _ => false end); [now injection Ck|].
    destruct (match x with PDict d => get_is d $"units" $"BYTES" | _ => false end); [now injection Ck|discriminate]. }
  rewrite S in A. subst a. destruct (H eq_refl) as [P _]. unfold ascii_text, with_length. cbn [p_as_rows p_length p_start]. rewrite S, P.
  unfold head_file, count. destruct (Z.ltb_spec (Z.of_nat (length pre)) 0); [lia|].
  destruct (Z.ltb_spec (Z.of_nat (length (pre ++ rest))) 0); [lia|].
  rewrite !Nat2Z.id, skipn_app, skipn_all, Nat.sub_diag. cbn [skipn app]. f_equal. apply firstn_all2. rewrite app_length. lia.
Qed.
Print Assumptions C89_envi.
(** *** Everything else is as the label says *)
Theorem C89_not_special p b target size s :
  (check Offset p = Ok Nothing -> start_byte p b target size = data_start_byte (ident p $"RECORD_BYTES") b target size) /\
  (check Position p = Ok Nothing ->
     table_props p b target size s =
     match table_position (ident p $"RECORD_BYTES") (ident p $"RECORD_TYPE") b target (object p) s with Ok q => Ok (Some q) | Err e => Err e end).
Proof.
  unfold start_byte, table_props. split; intros ->; [reflexivity|]. cbn [rbind]. unfold generic. now destruct (table_position _ _ _ _ _ _).
Qed.
Print Assumptions C89_not_special.

Lemma at_mark_iff c : at_mark c = true <-> In c $",(|)".
Proof.
  unfold at_mark. rewrite existsb_exists. split; [intros (x & I & E); apply Ascii.eqb_eq in E; now subst x|].
  intros I. exists c. split; [exact I|apply Ascii.eqb_refl].
Qed.
Lemma split_unmarked w c s : unmarked w -> at_mark c = true -> split_marks (w ++ c :: s) = w :: split_marks s.
Proof.
  intros U M. assert (NE : forall t, split_marks t <> []).
  { intros [|d t]; [discriminate|]. cbn [split_marks]. destruct (split_marks t) as [|x xs] eqn:E; [|now destruct (at_mark d)].
    exfalso. revert E. clear. induction t as [|e t IH]; [discriminate|]. cbn [split_marks]. destruct (split_marks t); [now destruct IH|]. now destruct (at_mark e). }
  induction w as [|d w IH].
  - cbn [app split_marks]. destruct (split_marks s) eqn:E; [now destruct (NE s)|]. now rewrite M.
  - cbn [app split_marks]. rewrite IH by (intros x I; apply U; now right).
    destruct (at_mark d) eqn:D; [|reflexivity]. apply at_mark_iff in D. now destruct (U d (or_introl eq_refl)).
Qed.
Lemma no_prefix_10 w : ~ Pds4Values.base_prefix 10 w.
Proof. intros (sg & c & t & _ & _ & I). cbn in I. repeat (destruct I as [I|I]; [discriminate I|]). exact I. Qed.
Lemma int_value_of w n : Pds4Values.int_text 10 w n -> PvlLiteral.py_int 10 w = Ok n.
Proof.
  intros H. destruct (Pds4Fields.int_bytes_iff 10%N w) as [I _]; [split; discriminate|apply no_prefix_10|].
  apply I in H. unfold Model.Pds4Values.int_bytes in H. destruct (existsb _ w); [discriminate|exact H].
Qed.
(** *** Clementine's bistatic radar: a pointer written as text, (file,row), is taken apart; the
    object is [row - 1] records into that file *)
Theorem C89_clementine p b target size fn row n r rest :
  chosen Offset p $"clementine" $"get_offset" ->
  label p ($"^" ++ object p) = PStr ($"(" ++ fn ++ $"," ++ row ++ $")" ++ rest) -> unmarked fn -> unmarked row ->
  Pds4Values.int_text 10 row n -> label p $"RECORD_BYTES" = PInt r ->
  clementine_get_fn p = Ok fn /\ start_byte p b target size = Ok ((n - 1) * r).
Proof.
  intros C L U1 U2 I R.
  assert (S : split_marks ($"(" ++ fn ++ $"," ++ row ++ $")" ++ rest) = [] :: fn :: row :: split_marks rest).
  { change ($"(" ++ fn ++ $"," ++ row ++ $")" ++ rest) with ([] ++ "("%char :: fn ++ ","%char :: row ++ ")"%char :: rest).
    rewrite split_unmarked; [|now intros c []|reflexivity]. rewrite split_unmarked; [|exact U1|reflexivity]. now rewrite split_unmarked. }
  split.
  - unfold clementine_get_fn, marked, pointer_of. now rewrite L, S.
  - rewrite (start_chosen _ _ _ _ _ _ C).
    change (offset_handler $"clementine" $"get_offset" p size) with (do z <- clementine_get_offset p; Ok (Some z)).
    unfold clementine_get_offset, marked, pointer_of. rewrite L, S. cbn [nth_error rbind]. now rewrite (int_value_of _ _ I), R.
Qed.
Print Assumptions C89_clementine.

(** *** The hypotheses are met *)
Definition product (ids : list (str * pv)) (labels : list (str * pv)) (name file : str) : asked :=
  mkAsked (fun k => match md_get ids k with Some v => v | None => PStr [] end) name file (PMulti [])
    (fun k => match md_get labels k with Some v => v | None => PNone end) [] PNone (fun _ => Ok (1359362957 # 1)%Q).
Definition wea : asked := product [($"DATA_SET_ID", PStr $"LRO-L-RSS-1-TRACKING-V1.0"); ($"RECORD_TYPE", PStr $"STREAM")] [] $"WEAREC_TABLE" $"W.TAB".
(* two rows of 4 bytes, of which the label says 3, after a line *)
Definition two : list str := [[ascii_of_nat 49; ascii_of_nat 50; CR; NL]; [ascii_of_nat 51; ascii_of_nat 52; CR; NL]].
Definition two_block : multidict := [($"ROWS", PInt 2); ($"ROW_BYTES", PInt 3)].
Definition in_two : pv := PTuple [PStr $"W.TAB"; PDict [($"value", PInt 3); ($"units", PStr $"BYTES")]].
Example C89_meets_rows :
  chosen Position wea $"lro" $"rss_get_position" /\ known (ident wea) two_block $"lro" $"rss_get_position" (count two) 4 /\ rows_of 4 two /\
  ~ stream_table (ident wea $"RECORD_BYTES") (ident wea $"RECORD_TYPE") (object wea) in_two two_block /\
  check Offset wea = Ok Nothing /\
  table_text wea (Some two_block) in_two ($"H" ++ [NL] ++ concat two ++ $"END") = Ok (concat two) /\
  (exists g, table_position (ident wea $"RECORD_BYTES") (ident wea $"RECORD_TYPE") (Some two_block) in_two (object wea) 2 = Ok g /\
    ascii_text ($"H" ++ [NL] ++ concat two ++ $"END") g = Ok (firstn 6 (concat two))).
Proof.
  split; [right; vm_compute; reflexivity|]. split; [apply (rss _ _ 2 3); reflexivity|]. split; [repeat constructor|].
  split; [|split; [vm_compute; reflexivity|split; [vm_compute; reflexivity|eexists; split; [reflexivity|vm_compute; reflexivity]]]].
  intros (_ & L & _). apply L. exists [PStr $"W.TAB"], (PDict [($"value", PInt 3); ($"units", PStr $"BYTES")]). split; [reflexivity|].
  eexists. split; reflexivity.
Qed.
Example C89_meets_products :
  let mrs_ := product [($"INSTRUMENT_HOST_NAME", PStr $"MARS EXPRESS"); ($"INSTRUMENT_ID", PStr $"MRS"); ($"PRODUCT_ID", PStr $"ICL_L1B")] [] $"DOPPLER_TABLE" $"A.TAB" in
  let ring := product [($"DATA_SET_ID", PStr $"IRTF-SR-URAC-4-OCC-V1.0"); ($"PRODUCT_ID", PStr $"GEOM1")] [] $"SERIES" $"A.TAB" in
  let atm := product [($"DATA_SET_ID", PStr $"MEX-M-MRS-5-OCC-V1.0")] [] $"ATM_TABLE" $"A.TAB" in
  let crism_ := product [($"DATA_SET_ID", PStr $"MRO-M-CRISM-5-RDR-MULTISPECTRAL-V1.0"); ($"PRODUCT_ID", PStr $"T0_MRRWV_1"); ($"RECORD_BYTES", PInt 16)] [] $"TABLE" $"A.TAB" in
  let marsis_ := product [($"INSTRUMENT_ID", PStr $"MARSIS"); ($"DATA_SET_NAME", PStr $"MARS TEC DATA"); ($"FILE_RECORDS", PInt 2)] [] $"TABLE" $"A.TAB" in
  let rpws_ := product [($"DATA_SET_ID", PStr $"CO-V/E/J/S/SS-RPWS-2-X"); ($"PRODUCT_TYPE", PStr $"ANCILLARY"); ($"FILE_RECORDS", PInt 5); ($"ROW_BYTES", PInt 7)] [] $"RPWS_TIME_ORDERED_TABLE" $"A.TAB" in
  let shape := product [($"DATA_SET_ID", PStr $"DIF-C-HRIV/MRI-5-HARTLEY2-SHAPE-V1.0"); ($"PRODUCT_ID", PStr $"HARTLEY2-CARTESIAN-PLATE-MODEL")] [] $"PLATE_TABLE" $"A.TAB" in
  let opacity o := product [($"DATA_SET_ID", PStr $"PHX-M-SSI-5-ATMOS-OPACITY-V1.0"); ($"ROWS", PInt 2); ($"ROW_BYTES", PInt 4)] [] o $"A.TAB" in
  let envi := product [($"DATA_SET_ID", PStr $"MSX-L-SPIRIT3-2/4-V1.0")] [] $"ENVI_HEADER" $"A.HDR" in
  let wcl := product [($"DATA_SET_ID", PStr $"PHX-M-MECA-4-NIRDR-V1.0"); ($"PRODUCT_TYPE", PStr $"MECA_WCL_CP")] [($"^CP_TABLE", bare $"A.TAB" 40)] $"CP_TABLE" $"A.TAB" in
  let rems := product [($"INSTRUMENT_HOST_NAME", PStr $"MARS SCIENCE LABORATORY"); ($"INSTRUMENT_ID", PStr $"REMS"); ($"PRODUCT_ID", PStr $"A_HSDEF__1")] [($"^REMS_REPORT_TABLE", bare $"A.TAB" 40)] $"REMS_REPORT_TABLE" $"A.TAB" in
  let qube := product [($"INSTRUMENT_ID", PStr $"THEMIS")] [($"FILE_RECORDS", PInt 5000); ($"^QUBE", bare $"A.QUB" 40)] $"QUBE" $"A.QUB" in
  let iss := product [($"DATA_SET_ID", PStr $"CO-E/V/J-ISSNA/ISSWA-2-EDR-V1.0"); ($"RECORD_BYTES", PInt 1048)] [($"^IMAGE", bare $"A.IMG" 5)] $"IMAGE" $"A.IMG" in
  let crater := product [($"INSTRUMENT_ID", PStr $"CRAT"); ($"PRODUCT_TYPE", PStr $"EDR")] [] $"TABLE_1" $"A.TAB" in
  let mahli := product [($"INSTRUMENT_HOST_NAME", PStr $"MARS SCIENCE LABORATORY"); ($"INSTRUMENT_ID", PStr $"MAHLI"); ($"DATA_SET_ID", PStr $"MSL-EDR")] [] $"IMAGE" $"A.DAT" in
  let chemin := product [($"INSTRUMENT_ID", PStr $"CHEMIN")] [] $"HISTOGRAM" $"A.DAT" in
  chosen Position mrs_ $"mex" $"mrs_get_position" /\ chosen Position ring $"ground" $"ebrocc_geom_get_position" /\
  chosen Position atm $"mex" $"mrs_ddr_atmo_position" /\ chosen Position crism_ $"mro" $"crism_mrdr_ancill_position" /\
  chosen Position marsis_ $"mex" $"marsis_get_position" /\ chosen Position rpws_ $"cassini" $"rpws_ancil_position" /\
  chosen Position shape $"epoxi" $"cart_model_get_position" /\
  table_props shape (Some [($"ROWS", PInt 3); ($"ROW_BYTES", PInt 80)]) (bare $"A.TAB" 6) 1000 400 = Ok (Some (mkPos 395 (PInt 237) false)) /\
  chosen Position (opacity $"HEADER") $"phoenix" $"phxao_header_position" /\ check Position (opacity $"TABLE") = Ok Nothing /\
  chosen Offset (opacity $"TABLE") $"phoenix" $"phxao_table_offset" /\
  table_text (opacity $"TABLE") (Some [($"ROWS", PInt 2); ($"ROW_BYTES", PInt 4)]) in_two ($"HEAD" ++ [NL] ++ concat two) = Ok (concat two) /\
  chosen Position envi $"msx" $"cube_envi_header_position" /\
  table_props envi (Some [($"BYTES", PStr $"N/A")]) (PStr $"A.HDR") 77 0 = Ok (Some (mkPos 0 (PInt 77) false)) /\
  chosen Offset wcl $"phoenix" $"wcl_rdr_offset" /\ start_byte wcl (Some []) (bare $"A.TAB" 40) 100 = Ok 39 /\
  chosen Offset rems $"msl_rems" $"edr_offset" /\ start_byte rems (Some []) (bare $"A.TAB" 40) 100 = Ok 39 /\
  chosen Offset qube $"themis" $"get_qube_offset" /\ start_byte qube (Some []) (bare $"A.QUB" 40) 5000 = Ok 39 /\
  chosen Offset iss $"cassini" $"coiss_1006_offset" /\ start_byte iss (Some []) (bare $"A.IMG" 5) 100 = Ok 3144 /\
  chosen Offset crater $"lro" $"get_crater_offset" /\ chosen Offset mahli $"msl_edr" $"edr_offset" /\ chosen Offset chemin $"msl_cmn" $"get_offset".
Proof. intros. unfold chosen. repeat split; try (vm_compute; reflexivity); try (left; vm_compute; reflexivity); right; vm_compute; reflexivity. Qed.
Example C89_meets_huygens : forall o, o = $"HEADER" \/ o = $"TABLE" ->
  let p := product [($"INSTRUMENT_NAME", PStr $"DESCENT IMAGER SPECTRAL RADIOMETER"); ($"PRODUCT_TYPE", PStr $"RDR"); ($"ROWS", PInt 2); ($"ROW_BYTES", PInt 3)] [] o $"DARK.TAB" in
  chosen Offset p $"cassini" $"get_offset" /\ chosen Position p $"cassini" $"get_position" /\ huygens_width (file p) 3 4 /\
  table_text p (Some [($"BYTES", PInt 9)]) (PStr $"DARK.TAB") ($"NAMES" ++ concat two) = Ok (if str_eqb o $"HEADER" then $"NAMES" else concat two).
Proof.
  intros o [-> | ->]; intros; unfold chosen; repeat split; try (vm_compute; reflexivity);
    try (left; vm_compute; reflexivity); try (right; vm_compute; reflexivity);
    apply (one_longer _ 3); intros C; apply complete_iff in C; vm_compute in C; discriminate.
Qed.
Example C89_meets_clementine :
  let p := product [($"DATA_SET_ID", PStr $"CLEM1-L-RSS-5-BSR-V1.0")] [($"^DATA_TABLE", PStr $"(A.DAT,12)"); ($"RECORD_BYTES", PInt 100)] $"DATA_TABLE" $"A.LBL" in
  chosen Offset p $"clementine" $"get_offset" /\ unmarked $"A.DAT" /\ unmarked $"12" /\ Pds4Values.int_text 10 $"12" 12 /\
  clementine_get_fn p = Ok $"A.DAT" /\ start_byte p (Some []) (PInt 1) 9 = Ok 1100.
Proof.
  intros. unfold chosen. split; [right; vm_compute; reflexivity|]. assert (N : Pds4Values.int_text 10 $"12" 12).
  { destruct (Pds4Fields.int_bytes_iff 10%N $"12") as [I _]; [split; discriminate|apply no_prefix_10|]. apply (proj1 (I 12)). vm_compute. reflexivity. }
  split; [|split; [|split; [exact N|split; vm_compute; reflexivity]]];
    intros c I J; apply at_mark_iff in J; cbn in I; repeat (destruct I as [<-|I]; [discriminate J|]); exact I.
Qed.
