(** * A case of C82: a label, and tables of text in files next to it *)
From Coq Require Import QArith.
From Verif.Base Require Import Py Val Numpy PyFacts.
From Verif.Model Require Import Files Pvl Meta Position Types Pds4Types Array Objects Dispatch Scaling Table TableValues TextTable PdsImage Product.
From Verif.Spec Require Import Types Pds4Values Pvl Meta Trim Files Dispatch Objects Position Array Table TableValues TextTable PdsImage Image Histogram Product.
From Verif.Properties Require Import Scaling Trim Files Pvl Dispatch Objects ObjectFiles Types Position Table PdsImage TableValues TextTable Product ProductObjects ProductCases ProductText.
From Verif.Proofs Require Files Objects TextTable.
Local Open Scope Z_scope.

Definition c82t_columns : list entry :=
  [Blk $"OBJECT" $"COLUMN" [Assign $"NAME" $"A"; Assign $"START_BYTE" $"1"; Assign $"BYTES" $"3"; Assign $"DATA_TYPE" $"ASCII_INTEGER"; Assign $"SCALING_FACTOR" $"2"] $"END_OBJECT" [];
   c82_column $"T" $"5" $"4" $"CHARACTER"].
Definition c82t_entries : list entry :=
  [Assign $"PDS_VERSION_ID" $"PDS3"; Assign $"RECORD_TYPE" $"STREAM"; Assign $"^TABLE" $"""T.TAB"""; Assign $"^ASCII_TABLE" $"(""T.ASC"", 2)"; Assign $"^SPREADSHEET" $"""T.CSV""";
   Blk $"OBJECT" $"TABLE" ([Assign $"INTERCHANGE_FORMAT" $"ASCII"; Assign $"ROWS" $"3"; Assign $"ROW_BYTES" $"10"] ++ c82t_columns) $"END_OBJECT" [];
   Blk $"OBJECT" $"ASCII_TABLE" ([Assign $"INTERCHANGE_FORMAT" $"ASCII"; Assign $"ROWS" $"3"; Assign $"ROW_BYTES" $"10"] ++ c82t_columns) $"END_OBJECT" [];
   Blk $"OBJECT" $"SPREADSHEET" [Assign $"FIELD_DELIMITER" $"SEMICOLON";
     Blk $"OBJECT" $"FIELD" [Assign $"NAME" $"A"; Assign $"DATA_TYPE" $"ASCII_INTEGER"; Assign $"BYTES" $"5"] $"END_OBJECT" [];
     Blk $"OBJECT" $"FIELD" [Assign $"NAME" $"B"; Assign $"DATA_TYPE" $"CHARACTER"; Assign $"ITEMS" $"2"; Assign $"ITEM_BYTES" $"4"] $"END_OBJECT" []] $"END_OBJECT" []].
Definition c82t_text : str := text_of_lines (map c82_line (label_statements c82t_entries ++ [($"END", [])])).
Definition c82t_block : multidict :=
  [($"INTERCHANGE_FORMAT", PStr $"ASCII"); ($"ROWS", PInt 3); ($"ROW_BYTES", PInt 10);
   ($"COLUMN", PMulti [($"NAME", PStr $"A"); ($"START_BYTE", PInt 1); ($"BYTES", PInt 3); ($"DATA_TYPE", PStr $"ASCII_INTEGER"); ($"SCALING_FACTOR", PInt 2)]);
   ($"COLUMN", PMulti [($"NAME", PStr $"T"); ($"START_BYTE", PInt 5); ($"BYTES", PInt 4); ($"DATA_TYPE", PStr $"CHARACTER")])].
Definition c82t_target : pv := PTuple [PStr $"T.ASC"; PInt 2].
Definition c82t_label : multidict :=
  [($"PDS_VERSION_ID", PStr $"PDS3"); ($"RECORD_TYPE", PStr $"STREAM"); ($"^TABLE", PStr $"T.TAB"); ($"^ASCII_TABLE", c82t_target); ($"^SPREADSHEET", PStr $"T.CSV");
   ($"TABLE", PMulti c82t_block); ($"ASCII_TABLE", PMulti c82t_block); ($"SPREADSHEET", PMulti ss_label)].
(** a part of Python's literals *)
Definition c82t_literal (s : str) : res pv := if str_eqb s $"(""T.ASC"", 2)" then Ok c82t_target else c82_literal s.
Definition c82t_outside : outside := mkOutside c82t_literal (fun _ t => Ok t) DepthFirst [] (fun _ => None) (fun c => c) (fun _ => NaN) (fun c => c)
  (fun _ => []) no_reals no_reals (fun _ => []) (fun f _ => Ok f) (fun _ => Err KeyError) 5.
Definition c82t_files : list str := [$"T.LBL"; $"T.TAB"; $"T.ASC"; $"T.CSV"].
Definition c82t_top : str := $"a, headline" ++ crnl.
Definition c82t_contents (n : str) : list ascii :=
  if str_eqb n $"T.LBL" then c82t_text ++ [NL] else if str_eqb n $"T.TAB" then concat tt_fixed else if str_eqb n $"T.ASC" then c82t_top ++ concat tt_lines else ss_text.
Definition c82t_disk : disk := mkDisk (fun dir => if str_eqb dir $"/d" then Some c82t_files else None) (fun p => c82t_contents (pname p)) (fun p => Z.of_nat (length (c82t_contents (pname p)))).
Definition c82t_names : list str := [$"TABLE"; $"ASCII_TABLE"; $"SPREADSHEET"].
Definition c82t_path : path := mkPath $"/d" $"T.LBL".

Lemma c82t_sane : sane c82t_outside.
Proof.
  split; [|reflexivity]. intros s e. cbn [literal_eval c82t_outside]. unfold c82t_literal. destruct (str_eqb s _); [discriminate|]. exact (proj1 c82_sane s e).
Qed.
Lemma c82t_written : written c82t_entries c82t_text.
Proof.
  exists [($"END", [])], (map (fun kv => [c82_line kv]) (label_statements c82t_entries ++ [($"END", [])])). split; [now right|]. split; [apply lines_written; vm_compute; reflexivity|].
  split; [|apply Properties.Pvl.not_mentions; vm_compute; reflexivity]. reflexivity.
Qed.
Lemma c82t_label_in : label_in c82_max (c82t_text ++ [NL]) c82t_text.
Proof.
  assert (E : c82t_text = firstn 20 c82t_text ++ concat [] ++ skipn 20 (firstn (length c82t_text - 5) c82t_text) ++ (END_line ++ [CR])) by (vm_compute; reflexivity).
  rewrite E at 2. apply ends_here with [NL] [].
  - vm_compute. reflexivity.
  - reflexivity.
  - constructor.
  - rewrite Nat.mul_0_r. apply Nat.ltb_lt. vm_compute. reflexivity.
  - right. split; [|reflexivity]. apply Nat.ltb_lt. vm_compute. reflexivity.
  - left. apply first_cr. vm_compute. reflexivity.
Qed.
Lemma c82t_means : label_of_entries c82t_literal c82t_entries c82t_label.
Proof.
  assert (U : forall s, has_char "#"%char (firstn 2 (skipn 1 s)) = false -> unbased s) by (intros s H; right; now apply no_char).
  assert (P : forall s v, has_char "#"%char (firstn 2 (skipn 1 s)) = false -> c82t_literal s = Ok v -> same_shape (fun v v' => exists s, v = PStr s /\ value_of_text c82t_literal s v') (PStr s) v).
  { intros s v Hu E. apply SS_leaf; [reflexivity|]. exists s. split; [reflexivity|]. apply v_plain. apply v_literal; auto. }
  assert (Q : forall s, has_char "#"%char (firstn 2 (skipn 1 s)) = false -> c82t_literal s = Err ValueError -> has_char "<"%char s = false -> startswith $"(" s = false -> startswith $"{" s = false ->
    same_shape (fun v v' => exists s, v = PStr s /\ value_of_text c82t_literal s v') (PStr s) (PStr s)).
  { intros s Hu E B1 B2 B3. apply SS_leaf; [reflexivity|]. exists s. split; [reflexivity|]. apply v_plain. apply v_word; [auto|right; exact E|left; now apply no_char|].
    intros t. split; intros ->; discriminate. }
  unfold label_of_entries, c82t_label, c82t_block, ss_label. cbn [denote denote_entry map app c82t_entries c82t_columns c82_column]. apply SS_multi.
  repeat (match goal with
    | |- Forall2 _ (_ :: _) (_ :: _) => apply Forall2_cons
    | |- Forall2 _ [] [] => apply Forall2_nil
    | |- _ /\ _ => split; [reflexivity|]; cbn [snd]
    | |- same_shape _ (PMulti _) (PMulti _) => apply SS_multi
    | |- same_shape _ (PStr _) (PInt _) => apply P; reflexivity
    | |- same_shape _ (PStr _) c82t_target => apply P; reflexivity
    | |- same_shape _ (PStr _) (PStr _) => first [apply Q; reflexivity|apply P; reflexivity]
    end).
Qed.
Lemma c82t_labelled : labelled (listing c82t_disk) c82t_path c82t_path.
Proof. apply opened_label. exists $".lbl". split; [cbn; auto|]. now exists $"t". Qed.
Lemma c82t_pds3 : pds3_name c82t_path.
Proof.
  assert (T : forall t u e : str, t = u ++ e -> endswith e t = true) by (intros t u e E; apply endswith_iff; eauto).
  split; [intros s; split; intros E; apply T in E; discriminate E|]. split; [intros s e He E; apply T in E; cbn [In] in He; repeat (destruct He as [<-|He]; [discriminate E|]); contradiction|].
  split; [intros s e He E; apply T in E; cbn [In] in He; repeat (destruct He as [<-|He]; [discriminate E|]); contradiction|].
  intros (e & He & I). vm_compute in I. destruct I as [<-|[]]. cbn [In] in He. repeat (destruct He as [He|He]; [discriminate He|]). contradiction.
Qed.
Lemma c82t_lists : lists_objects DepthFirst c82t_label c82t_names.
Proof.
  exists c82t_names. split; [apply Proofs.Objects.pointers_eq; vm_compute; reflexivity|].
  split; [apply (by_filter _ _ _ _ Proofs.Objects.trivial_iff); vm_compute; reflexivity|].
  intros n Hn; cbn [In c82t_names] in Hn; decompose [or] Hn; subst; try contradiction; (split; [intros X; apply contains_iff in X; discriminate X|]); intros v Hv; vm_compute in Hv; try contradiction; destruct Hv as [<-|[]]; eexists; (split; [reflexivity|]);
    repeat (apply Forall_cons; [intros [X|(w & _ & _ & X)]; discriminate X|]); apply Forall_nil.
Qed.
Lemma c82t_legible : legible c82t_literal DepthFirst c82_max (contents c82t_disk c82t_path) c82t_entries c82t_label c82t_names.
Proof.
  split; [exists c82t_text; split; [exact c82t_label_in|split; [|exact c82t_written]]|].
  { apply Forall_forall. intros c Hc. apply N.ltb_lt. revert c Hc. apply forallb_forall. vm_compute. reflexivity. }
  split; [unfold wf_label, c82t_entries, c82t_columns, c82_column; cbn [app]; repeat (first [apply Forall_nil|apply Forall_cons|apply plain_block|apply plain_assign; reflexivity])|].
  split; [|split; [exact c82t_means|split; [|exact c82t_lists]]].
  - intros p (Hp & H2 & _). assert (I : In p (flat_map completed_keys c82t_entries)) by (apply occurs_in; lia). vm_compute in I.
    repeat (destruct I as [<-|I]; [first [destruct Hp as [t X]; discriminate X|vm_compute in H2; lia]|]). contradiction.
  - split; intros X; vm_compute in X; contradiction.
Qed.
Lemma c82t_disk_ok : ordinary_dirs (listing c82t_disk) /\ on_disk (listing c82t_disk) c82t_path.
Proof.
  split.
  - intros d l e E I. cbn [listing c82t_disk] in E. destruct (str_eqb d $"/d"); [|discriminate]. injection E as <-. cbn [In c82t_files] in I; decompose [or] I; subst; try contradiction; now apply ordinary_bool.
  - eexists. split; [reflexivity|]. now left.
Qed.
(** what all three theorems need of the product *)
Example C82_text_product_meets : sane c82t_outside /\ ordinary_dirs (listing c82t_disk) /\ on_disk (listing c82t_disk) c82t_path /\ labelled (listing c82t_disk) c82t_path c82t_path /\ pds3_name c82t_path /\
  legible (literal_eval c82t_outside) (walk_order c82t_outside) c82_max (contents c82t_disk c82t_path) c82t_entries c82t_label c82t_names.
Proof.
  split; [exact c82t_sane|]. split; [exact (proj1 c82t_disk_ok)|]. split; [exact (proj2 c82t_disk_ok)|]. split; [exact c82t_labelled|]. split; [exact c82t_pds3|exact c82t_legible].
Qed.
Lemma c82t_rule name f : In (name, f) [($"TABLE", $"T.TAB"); ($"ASCII_TABLE", $"T.ASC"); ($"SPREADSHEET", $"T.CSV")] -> read_as KTable name f /\ ~ Objects.mentions $"HISTOGRAM" name.
Proof.
  intros H. cbn [In] in H. destruct H as [[= <- <-]|[[= <- <-]|[[= <- <-]|[]]]]; (split; [|not_word]); (split; [now apply no_char|]); intros ds Hds; unfold rules; do 11 no_rule;
  apply rule_applies; (split; [apply any_in_iff; reflexivity|]);
  (split; [|not_word]); intros (w & Hw & X); cbn [In words_of_tables] in Hw; (destruct X as [X|X]; apply contains_iff in X; repeat (destruct Hw as [<-|Hw]; [discriminate X|]); contradiction).
Qed.
Lemma c82t_given k v : existsb (str_eqb k) (flat_map completed_keys c82t_entries) = true -> values_of k (PMulti c82t_label) = [v] -> gives c82t_entries c82t_label k v.
Proof. intros H E. split; [|exact E]. apply existsb_exists in H as (y & H & X). apply str_eqb_eq in X. now subst. Qed.
Lemma c82t_in name m target f z : In name c82t_names -> name <> $"LABEL" -> (forall s, name <> "^"%char :: s) -> values_of name (PMulti c82t_label) = [PMulti m] -> values_of (pointer name) (PMulti c82t_label) = [target] ->
  existsb (str_eqb name) (flat_map completed_keys c82t_entries) && existsb (str_eqb (pointer name)) (flat_map completed_keys c82t_entries) = true ->
  names_file target f -> bare_name f -> In f c82t_files -> starts_at (PStr []) (Some m) (Product.size c82t_disk (mkPath $"/d" f)) target z -> target <> PTuple [] ->
  text_in c82t_disk c82t_path c82t_entries c82t_label c82t_names name m target (PStr []) (PStr $"STREAM") (mkPath $"/d" f) z.
Proof.
  intros H1 H2 H3 H4 H5 H6 H7 H8 H9 H10 H11. apply andb_true_iff in H6 as [H6 H6']. constructor; try assumption.
  - now apply c82t_given.
  - now apply c82t_given.
  - left. reflexivity.
  - intros v Hv. vm_compute in Hv. contradiction.
  - apply (other_file (listing c82t_disk) c82t_path target f); try assumption. eexists. split; [reflexivity|exact H9].
  - apply unsaid. reflexivity.
  - apply said; [|discriminate]. now apply c82t_given.
Qed.

Lemma c82t_says : says_table c82t_block tt_table.
Proof. split; [|reflexivity]. do 3 (apply other_item; [not_in|not_ptr|]). do 2 (apply part_item; [cbn; tauto|a_column|]). constructor. Qed.
Lemma c82t_described : named c82t_block None /\ may_hold c82t_block $"BYTES" None /\ row_measures c82t_block None None (Some 10) /\ good_table None tt_table /\
  separator c82t_block ","%char /\ Forall plain_name [$"A"; $"T"] /\ (forall name, text_block c82t_block name [Some $"ASCII_INTEGER"; Some $"CHARACTER"]).
Proof.
  split; [reflexivity|]. split; [reflexivity|]. split; [repeat split; reflexivity|]. split; [exact tt_good|]. split; [now left|].
  split; [constructor; [a_plain|]; constructor; [a_plain|constructor]|]. intros name. left. exists $"ASCII_INTEGER". split; [now left|now exists [], $"_INTEGER"].
Qed.
Definition shown_columns (o : Product.object) : option (list (str * list vcell)) := match o with OTable f => Some (map (fun c => (k_name c, k_values c)) f) | _ => None end.
(** a table of lines with separators, the second line of a file and those after it *)
Example C82_delimited_meets : let q := mkPath $"/d" $"T.ASC" in exists z,
  text_in c82t_disk c82t_path c82t_entries c82t_label c82t_names $"ASCII_TABLE" c82t_block c82t_target (PStr []) (PStr $"STREAM") q z /\
  read_as KTable $"ASCII_TABLE" (pname q) /\ rows_at (PStr []) (PStr $"STREAM") c82t_block $"ASCII_TABLE" c82t_target z (contents c82t_disk q) tt_lines /\
  says_table c82t_block tt_table /\ lines_hold ","%char tt_lines tt_rows /\ delimited 2 tt_rows /\
  exists p, open_product c82t_outside c82t_disk c82t_path None [] c82_max true = Ok p /\
    exists o, snd (load c82t_outside c82t_disk p $"ASCII_TABLE") = Ok o /\
      exists x y, shown_columns o = Some [($"A", [VNum (EF (Fin x)); VNum (EF (Fin y))]); ($"T", [VText $"AB"; VText $"C,D"])] /\ (x == 14)%Q /\ (y == 24)%Q.
Proof.
  intros q. exists (Z.max 0 (Product.size c82t_disk q - 3 * 10)). split; [|split; [|split; [|split; [|split; [|split]]]]].
  - apply c82t_in; try reflexivity; try discriminate; [cbn; auto|right; now exists [PInt 2]|now apply no_char|cbn; auto|].
    apply (at_in_file _ _ _ [PStr $"T.ASC"] (PInt 2)); [discriminate|]. apply (at_bottom _ _ _ 2 c82t_block (PStr []) 3 10); try reflexivity; [lia|right; split; reflexivity|now right].
  - apply c82t_rule. cbn; auto.
  - apply (rows_in_lines _ _ _ _ _ _ _ _ [c82t_top] []).
    + split; [intros (dd & X & _); discriminate X|]. split; [intros (front & y & X & dd & -> & _); injection X as X; destruct front as [|a [|b front]]; try discriminate X; destruct front; discriminate X|].
      split; [reflexivity|]. split; [now right|]. split; [reflexivity|]. left. now exists [], $"_TABLE".
    + apply Z.le_max_l.
    + exact (at_line (PStr $"T.ASC") 1).
    + split; [rewrite app_nil_r; reflexivity|]. intros a l b E.
      assert (X : In l ([c82t_top] ++ tt_lines ++ [])) by (rewrite E; apply in_or_app; right; now left). left.
      cbn [In app tt_lines] in X. destruct X as [<-|[<-|[<-|[<-|[]]]]]; [exists ($"a, headline" ++ [CR])|exists ($"  7,AB  " ++ [CR])|exists ($" 12,""C,D""" ++ [CR])|exists ($"  " ++ [CR])]; (split; [reflexivity|now apply no_char]).
    + left. apply by_rows; reflexivity.
  - exact c82t_says.
  - exact tt_lines_hold.
  - split; [eexists _, _; split; [reflexivity|]; split; [reflexivity|]; repeat constructor|]. intros i Hi. destruct i as [|[|i]]; [| |lia]; intros (H & _ & _);
    inversion H as [|? ? H1 _]; subst; destruct H1 as [M|([] & M)]; apply str_in_iff in M; discriminate M.
  - eexists. split; [vm_compute; reflexivity|]. eexists. split; [vm_compute; reflexivity|]. eexists _, _. split; [reflexivity|]. split; reflexivity.
Qed.
(** ... with cells at fixed places, by bytes *)
Example C82_fixed_width_meets : let q := mkPath $"/d" $"T.TAB" in
  text_in c82t_disk c82t_path c82t_entries c82t_label c82t_names $"TABLE" c82t_block (PStr $"T.TAB") (PStr []) (PStr $"STREAM") q 0 /\
  read_as KTable $"TABLE" (pname q) /\ rows_at (PStr []) (PStr $"STREAM") c82t_block $"TABLE" (PStr $"T.TAB") 0 (contents c82t_disk q) tt_fixed /\
  exists p, open_product c82t_outside c82t_disk c82t_path None [] c82_max true = Ok p /\
    exists o, snd (load c82t_outside c82t_disk p $"TABLE") = Ok o /\
      exists x y, shown_columns o = Some [($"A", [VNum (EF (Fin x)); VNum (EF (Fin y))]); ($"T", [VText $"AB"; VText $"C,D"])] /\ (x == 14)%Q /\ (y == 24)%Q.
Proof.
  intros q. split; [|split; [|split]].
  - apply c82t_in; try reflexivity; try discriminate; [cbn; auto|now left|now apply no_char|cbn; auto|apply at_file].
  - apply c82t_rule. cbn; auto.
  - apply (rows_in_bytes _ _ _ _ _ _ _ _ [] [] (Some 30)).
    + intros (_ & _ & _ & _ & _ & [X|[X|X]]); apply contains_iff in X; discriminate X.
    + apply (by_product_of _ _ 3 10); [reflexivity|apply by_rows; reflexivity|apply (by_row_bytes _ _ 10); reflexivity].
    + left. discriminate.
    + now rewrite app_nil_r.
    + reflexivity.
    + left. reflexivity.
  - eexists. split; [vm_compute; reflexivity|]. eexists. split; [vm_compute; reflexivity|]. eexists _, _. split; [reflexivity|]. split; reflexivity.
Qed.
(** a spreadsheet: all lines of a file *)
Example C82_spreadsheet_meets : let q := mkPath $"/d" $"T.CSV" in
  text_in c82t_disk c82t_path c82t_entries c82t_label c82t_names $"SPREADSHEET" ss_label (PStr $"T.CSV") (PStr []) (PStr $"STREAM") q 0 /\
  read_as KTable $"SPREADSHEET" (pname q) /\ rows_at (PStr []) (PStr $"STREAM") ss_label $"SPREADSHEET" (PStr $"T.CSV") 0 (contents c82t_disk q) [$"1;x;y" ++ [NL]; $"22;z"] /\
  says_stream ss_label ss_fields /\
  exists p, open_product c82t_outside c82t_disk c82t_path None [] c82_max true = Ok p /\
    exists o, snd (load c82t_outside c82t_disk p $"SPREADSHEET") = Ok o /\
      shown_columns o = Some [($"A", [VNum (EI 1); VNum (EI 22)]); ($"B_0", [VText $"x"; VText $"z"]); ($"B_1", [VText $"y"; VNum (EF NaN)])].
Proof.
  intros q. split; [|split; [|split; [|split]]].
  - apply c82t_in; try reflexivity; try discriminate; [cbn; auto|now left|now apply no_char|cbn; auto|apply at_file].
  - apply c82t_rule. cbn; auto.
  - apply (rows_in_lines _ _ _ _ _ _ _ _ [] []).
    + split; [intros (dd & X & _); discriminate X|]. split; [intros (front & y & X & _); discriminate X|].
      split; [reflexivity|]. split; [now right|]. split; [reflexivity|]. right. left. now exists [], [].
    + lia.
    + apply at_top.
    + split; [reflexivity|]. intros a l b E. destruct a as [|u [|v a]]; cbn in E.
      * injection E as <- <-. left. exists $"1;x;y". split; [reflexivity|now apply no_char].
      * injection E as <- <- <-. right. split; [reflexivity|]. split; [discriminate|now apply no_char].
      * injection E as _ _ E. destruct a; discriminate E.
    + right. split; [apply no_records; reflexivity|]. split; [reflexivity|]. intros X. apply contains_iff in X. discriminate X.
  - exact (proj1 C77_spreadsheet_meets).
  - eexists. split; [vm_compute; reflexivity|]. eexists. split; [vm_compute; reflexivity|]. reflexivity.
Qed.
